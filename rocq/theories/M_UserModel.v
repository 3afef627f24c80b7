(** UserModel.cpp: filling the parameter objects from a property map. *)
From Coq Require Import Ascii String.
From Verif Require Import Base Num Text M_Text M_Properties M_Params.
Open Scope list_scope.

(** The part of UserModel (UserModel.hpp 2262-2290) that loadBuilding fills: the parameter
    objects and [_weatherFilePath]. *)
Record building_model (T : Type) := mkBuildingModel {
  bm_params : params_t T;
  bm_weatherFilePath : text }.
Arguments mkBuildingModel {T}.
Arguments bm_params {T}.
Arguments bm_weatherFilePath {T}.

(** Replacing one parameter object of the model. *)
Definition put_structure {T} (u : building_model T) (x : structure_t T) : building_model T :=
  let p := bm_params u in
  mkBuildingModel (mkParams x (pa_heating p) (pa_cooling p) (pa_ventilation p) (pa_lighting p) (pa_building p) (pa_population p) (pa_settings p) (pa_phys p) (pa_terrain p)) (bm_weatherFilePath u).
Definition put_heating {T} (u : building_model T) (x : heating_t T) : building_model T :=
  let p := bm_params u in
  mkBuildingModel (mkParams (pa_structure p) x (pa_cooling p) (pa_ventilation p) (pa_lighting p) (pa_building p) (pa_population p) (pa_settings p) (pa_phys p) (pa_terrain p)) (bm_weatherFilePath u).
Definition put_cooling {T} (u : building_model T) (x : cooling_t T) : building_model T :=
  let p := bm_params u in
  mkBuildingModel (mkParams (pa_structure p) (pa_heating p) x (pa_ventilation p) (pa_lighting p) (pa_building p) (pa_population p) (pa_settings p) (pa_phys p) (pa_terrain p)) (bm_weatherFilePath u).
Definition put_ventilation {T} (u : building_model T) (x : ventilation_t T) : building_model T :=
  let p := bm_params u in
  mkBuildingModel (mkParams (pa_structure p) (pa_heating p) (pa_cooling p) x (pa_lighting p) (pa_building p) (pa_population p) (pa_settings p) (pa_phys p) (pa_terrain p)) (bm_weatherFilePath u).
Definition put_lighting {T} (u : building_model T) (x : lighting_t T) : building_model T :=
  let p := bm_params u in
  mkBuildingModel (mkParams (pa_structure p) (pa_heating p) (pa_cooling p) (pa_ventilation p) x (pa_building p) (pa_population p) (pa_settings p) (pa_phys p) (pa_terrain p)) (bm_weatherFilePath u).
Definition put_building {T} (u : building_model T) (x : building_t T) : building_model T :=
  let p := bm_params u in
  mkBuildingModel (mkParams (pa_structure p) (pa_heating p) (pa_cooling p) (pa_ventilation p) (pa_lighting p) x (pa_population p) (pa_settings p) (pa_phys p) (pa_terrain p)) (bm_weatherFilePath u).
Definition put_population {T} (u : building_model T) (x : population_t T) : building_model T :=
  let p := bm_params u in
  mkBuildingModel (mkParams (pa_structure p) (pa_heating p) (pa_cooling p) (pa_ventilation p) (pa_lighting p) (pa_building p) x (pa_settings p) (pa_phys p) (pa_terrain p)) (bm_weatherFilePath u).
Definition put_settings {T} (u : building_model T) (x : settings_t T) : building_model T :=
  let p := bm_params u in
  mkBuildingModel (mkParams (pa_structure p) (pa_heating p) (pa_cooling p) (pa_ventilation p) (pa_lighting p) (pa_building p) (pa_population p) x (pa_phys p) (pa_terrain p)) (bm_weatherFilePath u).
Definition put_phys {T} (u : building_model T) (x : phys_t T) : building_model T :=
  let p := bm_params u in
  mkBuildingModel (mkParams (pa_structure p) (pa_heating p) (pa_cooling p) (pa_ventilation p) (pa_lighting p) (pa_building p) (pa_population p) (pa_settings p) x (pa_terrain p)) (bm_weatherFilePath u).

(** The double-valued setters of the parameter objects (plain assignments of the member named
    in M_Params.v); one constructor per parameter read by initializeParameters.  The line is
    that of the UserModel.hpp setter that calls it. *)
Inductive structure_field :=
| F_st_buildingHeight  (* 1044 *)
| F_st_floorArea  (* 1064 *)
| F_st_infiltrationRate  (* 1039 *)
| F_st_interiorHeatCapacity  (* 1074 *)
| F_st_wallHeatCapacity  (* 1054 *)
| F_st_R_se  (* 1104 *)
| F_st_irradianceForMaxShadingUse  (* 1084 *)
| F_st_shadingFactorAtMaxUse  (* 1154 *)
| F_st_totalAreaPerFloorArea  (* 1214 *)
| F_st_win_ff  (* 1586 *)
| F_st_win_F_W  (* 1576 *)
| F_st_R_sc_ext  (* 1094 *).
Inductive heating_field :=
| F_ht_hotcoldWasteFactor  (* 672 *)
| F_ht_hvacLossFactor  (* 662 *)
| F_ht_efficiency  (* 642 *)
| F_ht_hotWaterDemand  (* 495 *)
| F_ht_hotWaterSystemEfficiency  (* 520 *)
| F_ht_hotWaterDistributionEfficiency  (* 505 *)
| F_ht_pumpControlReduction  (* 632 *)
| F_ht_tempOcc  (* 622 *)
| F_ht_tempUnocc  (* 652 *)
| F_ht_dT_supp  (* 546 *)
| F_ht_E_pumps  (* 556 *)
| F_ht_T_ctrl_flag  (* 682 *)
| F_ht_a_H0  (* 455 *)
| F_ht_tau_H0  (* 692 *)
| F_ht_DH_YesNo  (* 465 *)
| F_ht_eta_DH_network  (* 566 *)
| F_ht_eta_DH_sys  (* 576 *)
| F_ht_frac_DH_free  (* 596 *)
| F_ht_dhw_tset  (* 475 *)
| F_ht_dhw_tsupply  (* 485 *).
Inductive cooling_field :=
| F_cl_hvacLossFactor  (* 435 *)
| F_cl_cop  (* 315 *)
| F_cl_partialLoadValue  (* 325 *)
| F_cl_pumpControlReduction  (* 305 *)
| F_cl_tempOcc  (* 295 *)
| F_cl_tempUnocc  (* 335 *)
| F_cl_T_ctrl_flag  (* 445 *)
| F_cl_dT_supp  (* 355 *)
| F_cl_DC_YesNo  (* 345 *)
| F_cl_eta_DC_network  (* 405 *)
| F_cl_eta_DC_COP  (* 385 *)
| F_cl_eta_DC_frac_abs  (* 395 *)
| F_cl_eta_DC_COP_abs  (* 375 *)
| F_cl_frac_DC_free  (* 425 *)
| F_cl_E_pumps  (* 365 *).
Inductive ventilation_field :=
| F_ve_supplyRate  (* 2066 *)
| F_ve_supplyDifference  (* 2166 *)
| F_ve_heatRecoveryEfficiency  (* 2086 *)
| F_ve_exhaustAirRecirculated  (* 2046 *)
| F_ve_fanPower  (* 2136 *)
| F_ve_fanControlFactor  (* 2056 *)
| F_ve_preheat  (* 2224 *)
| F_ve_n50  (* 2116 *)
| F_ve_hzone  (* 2096 *)
| F_ve_p_exp  (* 2126 *)
| F_ve_zone_frac  (* 2254 *)
| F_ve_stack_exp  (* 2156 *)
| F_ve_stack_coeff  (* 2146 *)
| F_ve_wind_exp  (* 2244 *)
| F_ve_wind_coeff  (* 2234 *)
| F_ve_dCp  (* 2036 *)
| F_ve_H_ve  (* 2076 *).
Inductive lighting_field :=
| F_li_densityOcc  (* 772 *)
| F_li_densityUnocc  (* 782 *)
| F_li_exteriorEnergy  (* 742 *)
| F_li_dimmingFraction  (* 722 *)
| F_li_n_day_start  (* 822 *)
| F_li_n_day_end  (* 812 *)
| F_li_n_weeks  (* 832 *)
| F_li_elecInternalGains  (* 732 *)
| F_li_permLightPowerDensity  (* 852 *)
| F_li_presenceSensorAd  (* 882 *)
| F_li_automaticAd  (* 702 *)
| F_li_presenceAutoAd  (* 862 *)
| F_li_manualSwitchAd  (* 792 *)
| F_li_presenceSensorLux  (* 892 *)
| F_li_automaticLux  (* 712 *)
| F_li_presenceAutoLux  (* 872 *)
| F_li_manualSwitchLux  (* 802 *)
| F_li_naturallyLightedArea  (* 842 *).
Inductive building_field :=
| F_bu_elecApplianceOcc  (* 195 *)
| F_bu_elecApplianceUnocc  (* 205 *)
| F_bu_gasApplianceOcc  (* 265 *)
| F_bu_gasApplianceUnocc  (* 275 *)
| F_bu_lightingOccupancySensor  (* 285 *)
| F_bu_constantIllumination  (* 185 *)
| F_bu_externalEquipment  (* 235 *).
Inductive population_field :=
| F_po_daysStart  (* 927 *)
| F_po_daysEnd  (* 932 *)
| F_po_hoursStart  (* 942 *)
| F_po_hoursEnd  (* 952 *)
| F_po_densityOcc  (* 972 *)
| F_po_densityUnocc  (* 982 *)
| F_po_heatGainPerPerson  (* 962 *).
Inductive settings_field :=
| F_ss_phiIntFraction  (* 1024 *)
| F_ss_phiSolFraction  (* 1034 *)
| F_ss_hci  (* 1004 *)
| F_ss_hri  (* 1014 *).
Inductive phys_field :=
| F_ph_rhoCpAir  (* 912 *)
| F_ph_rhoCpWater  (* 922 *).
Inductive num_field :=
| N_structure (f : structure_field)
| N_heating (f : heating_field)
| N_cooling (f : cooling_field)
| N_ventilation (f : ventilation_field)
| N_lighting (f : lighting_field)
| N_building (f : building_field)
| N_population (f : population_field)
| N_settings (f : settings_field)
| N_phys (f : phys_field)
| N_terrain  (* 902 *).
Definition set_structure_field {T} (f : structure_field) (x : T) (p : structure_t T) : structure_t T :=
  match f with
  | F_st_buildingHeight => mkStructure (st_floorArea p) (st_wallArea p) (st_windowArea p) (st_wallU p) (st_windowU p) (st_wallEmissivity p) (st_wallAbsorption p) (st_windowSDF p) (st_windowSHGC p) (st_windowSCF p) (st_interiorHeatCapacity p) (st_wallHeatCapacity p) x (st_infiltrationRate p) (st_R_se p) (st_irradianceForMaxShadingUse p) (st_shadingFactorAtMaxUse p) (st_totalAreaPerFloorArea p) (st_win_ff p) (st_win_F_W p) (st_R_sc_ext p)
  | F_st_floorArea => mkStructure x (st_wallArea p) (st_windowArea p) (st_wallU p) (st_windowU p) (st_wallEmissivity p) (st_wallAbsorption p) (st_windowSDF p) (st_windowSHGC p) (st_windowSCF p) (st_interiorHeatCapacity p) (st_wallHeatCapacity p) (st_buildingHeight p) (st_infiltrationRate p) (st_R_se p) (st_irradianceForMaxShadingUse p) (st_shadingFactorAtMaxUse p) (st_totalAreaPerFloorArea p) (st_win_ff p) (st_win_F_W p) (st_R_sc_ext p)
  | F_st_infiltrationRate => mkStructure (st_floorArea p) (st_wallArea p) (st_windowArea p) (st_wallU p) (st_windowU p) (st_wallEmissivity p) (st_wallAbsorption p) (st_windowSDF p) (st_windowSHGC p) (st_windowSCF p) (st_interiorHeatCapacity p) (st_wallHeatCapacity p) (st_buildingHeight p) x (st_R_se p) (st_irradianceForMaxShadingUse p) (st_shadingFactorAtMaxUse p) (st_totalAreaPerFloorArea p) (st_win_ff p) (st_win_F_W p) (st_R_sc_ext p)
  | F_st_interiorHeatCapacity => mkStructure (st_floorArea p) (st_wallArea p) (st_windowArea p) (st_wallU p) (st_windowU p) (st_wallEmissivity p) (st_wallAbsorption p) (st_windowSDF p) (st_windowSHGC p) (st_windowSCF p) x (st_wallHeatCapacity p) (st_buildingHeight p) (st_infiltrationRate p) (st_R_se p) (st_irradianceForMaxShadingUse p) (st_shadingFactorAtMaxUse p) (st_totalAreaPerFloorArea p) (st_win_ff p) (st_win_F_W p) (st_R_sc_ext p)
  | F_st_wallHeatCapacity => mkStructure (st_floorArea p) (st_wallArea p) (st_windowArea p) (st_wallU p) (st_windowU p) (st_wallEmissivity p) (st_wallAbsorption p) (st_windowSDF p) (st_windowSHGC p) (st_windowSCF p) (st_interiorHeatCapacity p) x (st_buildingHeight p) (st_infiltrationRate p) (st_R_se p) (st_irradianceForMaxShadingUse p) (st_shadingFactorAtMaxUse p) (st_totalAreaPerFloorArea p) (st_win_ff p) (st_win_F_W p) (st_R_sc_ext p)
  | F_st_R_se => mkStructure (st_floorArea p) (st_wallArea p) (st_windowArea p) (st_wallU p) (st_windowU p) (st_wallEmissivity p) (st_wallAbsorption p) (st_windowSDF p) (st_windowSHGC p) (st_windowSCF p) (st_interiorHeatCapacity p) (st_wallHeatCapacity p) (st_buildingHeight p) (st_infiltrationRate p) x (st_irradianceForMaxShadingUse p) (st_shadingFactorAtMaxUse p) (st_totalAreaPerFloorArea p) (st_win_ff p) (st_win_F_W p) (st_R_sc_ext p)
  | F_st_irradianceForMaxShadingUse => mkStructure (st_floorArea p) (st_wallArea p) (st_windowArea p) (st_wallU p) (st_windowU p) (st_wallEmissivity p) (st_wallAbsorption p) (st_windowSDF p) (st_windowSHGC p) (st_windowSCF p) (st_interiorHeatCapacity p) (st_wallHeatCapacity p) (st_buildingHeight p) (st_infiltrationRate p) (st_R_se p) x (st_shadingFactorAtMaxUse p) (st_totalAreaPerFloorArea p) (st_win_ff p) (st_win_F_W p) (st_R_sc_ext p)
  | F_st_shadingFactorAtMaxUse => mkStructure (st_floorArea p) (st_wallArea p) (st_windowArea p) (st_wallU p) (st_windowU p) (st_wallEmissivity p) (st_wallAbsorption p) (st_windowSDF p) (st_windowSHGC p) (st_windowSCF p) (st_interiorHeatCapacity p) (st_wallHeatCapacity p) (st_buildingHeight p) (st_infiltrationRate p) (st_R_se p) (st_irradianceForMaxShadingUse p) x (st_totalAreaPerFloorArea p) (st_win_ff p) (st_win_F_W p) (st_R_sc_ext p)
  | F_st_totalAreaPerFloorArea => mkStructure (st_floorArea p) (st_wallArea p) (st_windowArea p) (st_wallU p) (st_windowU p) (st_wallEmissivity p) (st_wallAbsorption p) (st_windowSDF p) (st_windowSHGC p) (st_windowSCF p) (st_interiorHeatCapacity p) (st_wallHeatCapacity p) (st_buildingHeight p) (st_infiltrationRate p) (st_R_se p) (st_irradianceForMaxShadingUse p) (st_shadingFactorAtMaxUse p) x (st_win_ff p) (st_win_F_W p) (st_R_sc_ext p)
  | F_st_win_ff => mkStructure (st_floorArea p) (st_wallArea p) (st_windowArea p) (st_wallU p) (st_windowU p) (st_wallEmissivity p) (st_wallAbsorption p) (st_windowSDF p) (st_windowSHGC p) (st_windowSCF p) (st_interiorHeatCapacity p) (st_wallHeatCapacity p) (st_buildingHeight p) (st_infiltrationRate p) (st_R_se p) (st_irradianceForMaxShadingUse p) (st_shadingFactorAtMaxUse p) (st_totalAreaPerFloorArea p) x (st_win_F_W p) (st_R_sc_ext p)
  | F_st_win_F_W => mkStructure (st_floorArea p) (st_wallArea p) (st_windowArea p) (st_wallU p) (st_windowU p) (st_wallEmissivity p) (st_wallAbsorption p) (st_windowSDF p) (st_windowSHGC p) (st_windowSCF p) (st_interiorHeatCapacity p) (st_wallHeatCapacity p) (st_buildingHeight p) (st_infiltrationRate p) (st_R_se p) (st_irradianceForMaxShadingUse p) (st_shadingFactorAtMaxUse p) (st_totalAreaPerFloorArea p) (st_win_ff p) x (st_R_sc_ext p)
  | F_st_R_sc_ext => mkStructure (st_floorArea p) (st_wallArea p) (st_windowArea p) (st_wallU p) (st_windowU p) (st_wallEmissivity p) (st_wallAbsorption p) (st_windowSDF p) (st_windowSHGC p) (st_windowSCF p) (st_interiorHeatCapacity p) (st_wallHeatCapacity p) (st_buildingHeight p) (st_infiltrationRate p) (st_R_se p) (st_irradianceForMaxShadingUse p) (st_shadingFactorAtMaxUse p) (st_totalAreaPerFloorArea p) (st_win_ff p) (st_win_F_W p) x
  end.
Definition set_heating_field {T} (f : heating_field) (x : T) (p : heating_t T) : heating_t T :=
  match f with
  | F_ht_hotcoldWasteFactor => mkHeating (ht_tempOcc p) (ht_tempUnocc p) (ht_hvacLossFactor p) (ht_efficiency p) (ht_energyType p) (ht_pumpControlReduction p) (ht_hotWaterDemand p) (ht_hotWaterDistributionEfficiency p) (ht_hotWaterSystemEfficiency p) (ht_hotWaterEnergyType p) x (ht_forcedAir p) (ht_dT_supp p) (ht_E_pumps p) (ht_T_ctrl_flag p) (ht_a_H0 p) (ht_tau_H0 p) (ht_DH_YesNo p) (ht_eta_DH_network p) (ht_eta_DH_sys p) (ht_frac_DH_free p) (ht_dhw_tset p) (ht_dhw_tsupply p)
  | F_ht_hvacLossFactor => mkHeating (ht_tempOcc p) (ht_tempUnocc p) x (ht_efficiency p) (ht_energyType p) (ht_pumpControlReduction p) (ht_hotWaterDemand p) (ht_hotWaterDistributionEfficiency p) (ht_hotWaterSystemEfficiency p) (ht_hotWaterEnergyType p) (ht_hotcoldWasteFactor p) (ht_forcedAir p) (ht_dT_supp p) (ht_E_pumps p) (ht_T_ctrl_flag p) (ht_a_H0 p) (ht_tau_H0 p) (ht_DH_YesNo p) (ht_eta_DH_network p) (ht_eta_DH_sys p) (ht_frac_DH_free p) (ht_dhw_tset p) (ht_dhw_tsupply p)
  | F_ht_efficiency => mkHeating (ht_tempOcc p) (ht_tempUnocc p) (ht_hvacLossFactor p) x (ht_energyType p) (ht_pumpControlReduction p) (ht_hotWaterDemand p) (ht_hotWaterDistributionEfficiency p) (ht_hotWaterSystemEfficiency p) (ht_hotWaterEnergyType p) (ht_hotcoldWasteFactor p) (ht_forcedAir p) (ht_dT_supp p) (ht_E_pumps p) (ht_T_ctrl_flag p) (ht_a_H0 p) (ht_tau_H0 p) (ht_DH_YesNo p) (ht_eta_DH_network p) (ht_eta_DH_sys p) (ht_frac_DH_free p) (ht_dhw_tset p) (ht_dhw_tsupply p)
  | F_ht_hotWaterDemand => mkHeating (ht_tempOcc p) (ht_tempUnocc p) (ht_hvacLossFactor p) (ht_efficiency p) (ht_energyType p) (ht_pumpControlReduction p) x (ht_hotWaterDistributionEfficiency p) (ht_hotWaterSystemEfficiency p) (ht_hotWaterEnergyType p) (ht_hotcoldWasteFactor p) (ht_forcedAir p) (ht_dT_supp p) (ht_E_pumps p) (ht_T_ctrl_flag p) (ht_a_H0 p) (ht_tau_H0 p) (ht_DH_YesNo p) (ht_eta_DH_network p) (ht_eta_DH_sys p) (ht_frac_DH_free p) (ht_dhw_tset p) (ht_dhw_tsupply p)
  | F_ht_hotWaterSystemEfficiency => mkHeating (ht_tempOcc p) (ht_tempUnocc p) (ht_hvacLossFactor p) (ht_efficiency p) (ht_energyType p) (ht_pumpControlReduction p) (ht_hotWaterDemand p) (ht_hotWaterDistributionEfficiency p) x (ht_hotWaterEnergyType p) (ht_hotcoldWasteFactor p) (ht_forcedAir p) (ht_dT_supp p) (ht_E_pumps p) (ht_T_ctrl_flag p) (ht_a_H0 p) (ht_tau_H0 p) (ht_DH_YesNo p) (ht_eta_DH_network p) (ht_eta_DH_sys p) (ht_frac_DH_free p) (ht_dhw_tset p) (ht_dhw_tsupply p)
  | F_ht_hotWaterDistributionEfficiency => mkHeating (ht_tempOcc p) (ht_tempUnocc p) (ht_hvacLossFactor p) (ht_efficiency p) (ht_energyType p) (ht_pumpControlReduction p) (ht_hotWaterDemand p) x (ht_hotWaterSystemEfficiency p) (ht_hotWaterEnergyType p) (ht_hotcoldWasteFactor p) (ht_forcedAir p) (ht_dT_supp p) (ht_E_pumps p) (ht_T_ctrl_flag p) (ht_a_H0 p) (ht_tau_H0 p) (ht_DH_YesNo p) (ht_eta_DH_network p) (ht_eta_DH_sys p) (ht_frac_DH_free p) (ht_dhw_tset p) (ht_dhw_tsupply p)
  | F_ht_pumpControlReduction => mkHeating (ht_tempOcc p) (ht_tempUnocc p) (ht_hvacLossFactor p) (ht_efficiency p) (ht_energyType p) x (ht_hotWaterDemand p) (ht_hotWaterDistributionEfficiency p) (ht_hotWaterSystemEfficiency p) (ht_hotWaterEnergyType p) (ht_hotcoldWasteFactor p) (ht_forcedAir p) (ht_dT_supp p) (ht_E_pumps p) (ht_T_ctrl_flag p) (ht_a_H0 p) (ht_tau_H0 p) (ht_DH_YesNo p) (ht_eta_DH_network p) (ht_eta_DH_sys p) (ht_frac_DH_free p) (ht_dhw_tset p) (ht_dhw_tsupply p)
  | F_ht_tempOcc => mkHeating x (ht_tempUnocc p) (ht_hvacLossFactor p) (ht_efficiency p) (ht_energyType p) (ht_pumpControlReduction p) (ht_hotWaterDemand p) (ht_hotWaterDistributionEfficiency p) (ht_hotWaterSystemEfficiency p) (ht_hotWaterEnergyType p) (ht_hotcoldWasteFactor p) (ht_forcedAir p) (ht_dT_supp p) (ht_E_pumps p) (ht_T_ctrl_flag p) (ht_a_H0 p) (ht_tau_H0 p) (ht_DH_YesNo p) (ht_eta_DH_network p) (ht_eta_DH_sys p) (ht_frac_DH_free p) (ht_dhw_tset p) (ht_dhw_tsupply p)
  | F_ht_tempUnocc => mkHeating (ht_tempOcc p) x (ht_hvacLossFactor p) (ht_efficiency p) (ht_energyType p) (ht_pumpControlReduction p) (ht_hotWaterDemand p) (ht_hotWaterDistributionEfficiency p) (ht_hotWaterSystemEfficiency p) (ht_hotWaterEnergyType p) (ht_hotcoldWasteFactor p) (ht_forcedAir p) (ht_dT_supp p) (ht_E_pumps p) (ht_T_ctrl_flag p) (ht_a_H0 p) (ht_tau_H0 p) (ht_DH_YesNo p) (ht_eta_DH_network p) (ht_eta_DH_sys p) (ht_frac_DH_free p) (ht_dhw_tset p) (ht_dhw_tsupply p)
  | F_ht_dT_supp => mkHeating (ht_tempOcc p) (ht_tempUnocc p) (ht_hvacLossFactor p) (ht_efficiency p) (ht_energyType p) (ht_pumpControlReduction p) (ht_hotWaterDemand p) (ht_hotWaterDistributionEfficiency p) (ht_hotWaterSystemEfficiency p) (ht_hotWaterEnergyType p) (ht_hotcoldWasteFactor p) (ht_forcedAir p) x (ht_E_pumps p) (ht_T_ctrl_flag p) (ht_a_H0 p) (ht_tau_H0 p) (ht_DH_YesNo p) (ht_eta_DH_network p) (ht_eta_DH_sys p) (ht_frac_DH_free p) (ht_dhw_tset p) (ht_dhw_tsupply p)
  | F_ht_E_pumps => mkHeating (ht_tempOcc p) (ht_tempUnocc p) (ht_hvacLossFactor p) (ht_efficiency p) (ht_energyType p) (ht_pumpControlReduction p) (ht_hotWaterDemand p) (ht_hotWaterDistributionEfficiency p) (ht_hotWaterSystemEfficiency p) (ht_hotWaterEnergyType p) (ht_hotcoldWasteFactor p) (ht_forcedAir p) (ht_dT_supp p) x (ht_T_ctrl_flag p) (ht_a_H0 p) (ht_tau_H0 p) (ht_DH_YesNo p) (ht_eta_DH_network p) (ht_eta_DH_sys p) (ht_frac_DH_free p) (ht_dhw_tset p) (ht_dhw_tsupply p)
  | F_ht_T_ctrl_flag => mkHeating (ht_tempOcc p) (ht_tempUnocc p) (ht_hvacLossFactor p) (ht_efficiency p) (ht_energyType p) (ht_pumpControlReduction p) (ht_hotWaterDemand p) (ht_hotWaterDistributionEfficiency p) (ht_hotWaterSystemEfficiency p) (ht_hotWaterEnergyType p) (ht_hotcoldWasteFactor p) (ht_forcedAir p) (ht_dT_supp p) (ht_E_pumps p) x (ht_a_H0 p) (ht_tau_H0 p) (ht_DH_YesNo p) (ht_eta_DH_network p) (ht_eta_DH_sys p) (ht_frac_DH_free p) (ht_dhw_tset p) (ht_dhw_tsupply p)
  | F_ht_a_H0 => mkHeating (ht_tempOcc p) (ht_tempUnocc p) (ht_hvacLossFactor p) (ht_efficiency p) (ht_energyType p) (ht_pumpControlReduction p) (ht_hotWaterDemand p) (ht_hotWaterDistributionEfficiency p) (ht_hotWaterSystemEfficiency p) (ht_hotWaterEnergyType p) (ht_hotcoldWasteFactor p) (ht_forcedAir p) (ht_dT_supp p) (ht_E_pumps p) (ht_T_ctrl_flag p) x (ht_tau_H0 p) (ht_DH_YesNo p) (ht_eta_DH_network p) (ht_eta_DH_sys p) (ht_frac_DH_free p) (ht_dhw_tset p) (ht_dhw_tsupply p)
  | F_ht_tau_H0 => mkHeating (ht_tempOcc p) (ht_tempUnocc p) (ht_hvacLossFactor p) (ht_efficiency p) (ht_energyType p) (ht_pumpControlReduction p) (ht_hotWaterDemand p) (ht_hotWaterDistributionEfficiency p) (ht_hotWaterSystemEfficiency p) (ht_hotWaterEnergyType p) (ht_hotcoldWasteFactor p) (ht_forcedAir p) (ht_dT_supp p) (ht_E_pumps p) (ht_T_ctrl_flag p) (ht_a_H0 p) x (ht_DH_YesNo p) (ht_eta_DH_network p) (ht_eta_DH_sys p) (ht_frac_DH_free p) (ht_dhw_tset p) (ht_dhw_tsupply p)
  | F_ht_DH_YesNo => mkHeating (ht_tempOcc p) (ht_tempUnocc p) (ht_hvacLossFactor p) (ht_efficiency p) (ht_energyType p) (ht_pumpControlReduction p) (ht_hotWaterDemand p) (ht_hotWaterDistributionEfficiency p) (ht_hotWaterSystemEfficiency p) (ht_hotWaterEnergyType p) (ht_hotcoldWasteFactor p) (ht_forcedAir p) (ht_dT_supp p) (ht_E_pumps p) (ht_T_ctrl_flag p) (ht_a_H0 p) (ht_tau_H0 p) x (ht_eta_DH_network p) (ht_eta_DH_sys p) (ht_frac_DH_free p) (ht_dhw_tset p) (ht_dhw_tsupply p)
  | F_ht_eta_DH_network => mkHeating (ht_tempOcc p) (ht_tempUnocc p) (ht_hvacLossFactor p) (ht_efficiency p) (ht_energyType p) (ht_pumpControlReduction p) (ht_hotWaterDemand p) (ht_hotWaterDistributionEfficiency p) (ht_hotWaterSystemEfficiency p) (ht_hotWaterEnergyType p) (ht_hotcoldWasteFactor p) (ht_forcedAir p) (ht_dT_supp p) (ht_E_pumps p) (ht_T_ctrl_flag p) (ht_a_H0 p) (ht_tau_H0 p) (ht_DH_YesNo p) x (ht_eta_DH_sys p) (ht_frac_DH_free p) (ht_dhw_tset p) (ht_dhw_tsupply p)
  | F_ht_eta_DH_sys => mkHeating (ht_tempOcc p) (ht_tempUnocc p) (ht_hvacLossFactor p) (ht_efficiency p) (ht_energyType p) (ht_pumpControlReduction p) (ht_hotWaterDemand p) (ht_hotWaterDistributionEfficiency p) (ht_hotWaterSystemEfficiency p) (ht_hotWaterEnergyType p) (ht_hotcoldWasteFactor p) (ht_forcedAir p) (ht_dT_supp p) (ht_E_pumps p) (ht_T_ctrl_flag p) (ht_a_H0 p) (ht_tau_H0 p) (ht_DH_YesNo p) (ht_eta_DH_network p) x (ht_frac_DH_free p) (ht_dhw_tset p) (ht_dhw_tsupply p)
  | F_ht_frac_DH_free => mkHeating (ht_tempOcc p) (ht_tempUnocc p) (ht_hvacLossFactor p) (ht_efficiency p) (ht_energyType p) (ht_pumpControlReduction p) (ht_hotWaterDemand p) (ht_hotWaterDistributionEfficiency p) (ht_hotWaterSystemEfficiency p) (ht_hotWaterEnergyType p) (ht_hotcoldWasteFactor p) (ht_forcedAir p) (ht_dT_supp p) (ht_E_pumps p) (ht_T_ctrl_flag p) (ht_a_H0 p) (ht_tau_H0 p) (ht_DH_YesNo p) (ht_eta_DH_network p) (ht_eta_DH_sys p) x (ht_dhw_tset p) (ht_dhw_tsupply p)
  | F_ht_dhw_tset => mkHeating (ht_tempOcc p) (ht_tempUnocc p) (ht_hvacLossFactor p) (ht_efficiency p) (ht_energyType p) (ht_pumpControlReduction p) (ht_hotWaterDemand p) (ht_hotWaterDistributionEfficiency p) (ht_hotWaterSystemEfficiency p) (ht_hotWaterEnergyType p) (ht_hotcoldWasteFactor p) (ht_forcedAir p) (ht_dT_supp p) (ht_E_pumps p) (ht_T_ctrl_flag p) (ht_a_H0 p) (ht_tau_H0 p) (ht_DH_YesNo p) (ht_eta_DH_network p) (ht_eta_DH_sys p) (ht_frac_DH_free p) x (ht_dhw_tsupply p)
  | F_ht_dhw_tsupply => mkHeating (ht_tempOcc p) (ht_tempUnocc p) (ht_hvacLossFactor p) (ht_efficiency p) (ht_energyType p) (ht_pumpControlReduction p) (ht_hotWaterDemand p) (ht_hotWaterDistributionEfficiency p) (ht_hotWaterSystemEfficiency p) (ht_hotWaterEnergyType p) (ht_hotcoldWasteFactor p) (ht_forcedAir p) (ht_dT_supp p) (ht_E_pumps p) (ht_T_ctrl_flag p) (ht_a_H0 p) (ht_tau_H0 p) (ht_DH_YesNo p) (ht_eta_DH_network p) (ht_eta_DH_sys p) (ht_frac_DH_free p) (ht_dhw_tset p) x
  end.
Definition set_cooling_field {T} (f : cooling_field) (x : T) (p : cooling_t T) : cooling_t T :=
  match f with
  | F_cl_hvacLossFactor => mkCooling (cl_tempOcc p) (cl_tempUnocc p) (cl_cop p) (cl_partialLoadValue p) x (cl_pumpControlReduction p) (cl_forcedAir p) (cl_T_ctrl_flag p) (cl_dT_supp p) (cl_DC_YesNo p) (cl_eta_DC_network p) (cl_eta_DC_COP p) (cl_eta_DC_frac_abs p) (cl_eta_DC_COP_abs p) (cl_frac_DC_free p) (cl_E_pumps p)
  | F_cl_cop => mkCooling (cl_tempOcc p) (cl_tempUnocc p) x (cl_partialLoadValue p) (cl_hvacLossFactor p) (cl_pumpControlReduction p) (cl_forcedAir p) (cl_T_ctrl_flag p) (cl_dT_supp p) (cl_DC_YesNo p) (cl_eta_DC_network p) (cl_eta_DC_COP p) (cl_eta_DC_frac_abs p) (cl_eta_DC_COP_abs p) (cl_frac_DC_free p) (cl_E_pumps p)
  | F_cl_partialLoadValue => mkCooling (cl_tempOcc p) (cl_tempUnocc p) (cl_cop p) x (cl_hvacLossFactor p) (cl_pumpControlReduction p) (cl_forcedAir p) (cl_T_ctrl_flag p) (cl_dT_supp p) (cl_DC_YesNo p) (cl_eta_DC_network p) (cl_eta_DC_COP p) (cl_eta_DC_frac_abs p) (cl_eta_DC_COP_abs p) (cl_frac_DC_free p) (cl_E_pumps p)
  | F_cl_pumpControlReduction => mkCooling (cl_tempOcc p) (cl_tempUnocc p) (cl_cop p) (cl_partialLoadValue p) (cl_hvacLossFactor p) x (cl_forcedAir p) (cl_T_ctrl_flag p) (cl_dT_supp p) (cl_DC_YesNo p) (cl_eta_DC_network p) (cl_eta_DC_COP p) (cl_eta_DC_frac_abs p) (cl_eta_DC_COP_abs p) (cl_frac_DC_free p) (cl_E_pumps p)
  | F_cl_tempOcc => mkCooling x (cl_tempUnocc p) (cl_cop p) (cl_partialLoadValue p) (cl_hvacLossFactor p) (cl_pumpControlReduction p) (cl_forcedAir p) (cl_T_ctrl_flag p) (cl_dT_supp p) (cl_DC_YesNo p) (cl_eta_DC_network p) (cl_eta_DC_COP p) (cl_eta_DC_frac_abs p) (cl_eta_DC_COP_abs p) (cl_frac_DC_free p) (cl_E_pumps p)
  | F_cl_tempUnocc => mkCooling (cl_tempOcc p) x (cl_cop p) (cl_partialLoadValue p) (cl_hvacLossFactor p) (cl_pumpControlReduction p) (cl_forcedAir p) (cl_T_ctrl_flag p) (cl_dT_supp p) (cl_DC_YesNo p) (cl_eta_DC_network p) (cl_eta_DC_COP p) (cl_eta_DC_frac_abs p) (cl_eta_DC_COP_abs p) (cl_frac_DC_free p) (cl_E_pumps p)
  | F_cl_T_ctrl_flag => mkCooling (cl_tempOcc p) (cl_tempUnocc p) (cl_cop p) (cl_partialLoadValue p) (cl_hvacLossFactor p) (cl_pumpControlReduction p) (cl_forcedAir p) x (cl_dT_supp p) (cl_DC_YesNo p) (cl_eta_DC_network p) (cl_eta_DC_COP p) (cl_eta_DC_frac_abs p) (cl_eta_DC_COP_abs p) (cl_frac_DC_free p) (cl_E_pumps p)
  | F_cl_dT_supp => mkCooling (cl_tempOcc p) (cl_tempUnocc p) (cl_cop p) (cl_partialLoadValue p) (cl_hvacLossFactor p) (cl_pumpControlReduction p) (cl_forcedAir p) (cl_T_ctrl_flag p) x (cl_DC_YesNo p) (cl_eta_DC_network p) (cl_eta_DC_COP p) (cl_eta_DC_frac_abs p) (cl_eta_DC_COP_abs p) (cl_frac_DC_free p) (cl_E_pumps p)
  | F_cl_DC_YesNo => mkCooling (cl_tempOcc p) (cl_tempUnocc p) (cl_cop p) (cl_partialLoadValue p) (cl_hvacLossFactor p) (cl_pumpControlReduction p) (cl_forcedAir p) (cl_T_ctrl_flag p) (cl_dT_supp p) x (cl_eta_DC_network p) (cl_eta_DC_COP p) (cl_eta_DC_frac_abs p) (cl_eta_DC_COP_abs p) (cl_frac_DC_free p) (cl_E_pumps p)
  | F_cl_eta_DC_network => mkCooling (cl_tempOcc p) (cl_tempUnocc p) (cl_cop p) (cl_partialLoadValue p) (cl_hvacLossFactor p) (cl_pumpControlReduction p) (cl_forcedAir p) (cl_T_ctrl_flag p) (cl_dT_supp p) (cl_DC_YesNo p) x (cl_eta_DC_COP p) (cl_eta_DC_frac_abs p) (cl_eta_DC_COP_abs p) (cl_frac_DC_free p) (cl_E_pumps p)
  | F_cl_eta_DC_COP => mkCooling (cl_tempOcc p) (cl_tempUnocc p) (cl_cop p) (cl_partialLoadValue p) (cl_hvacLossFactor p) (cl_pumpControlReduction p) (cl_forcedAir p) (cl_T_ctrl_flag p) (cl_dT_supp p) (cl_DC_YesNo p) (cl_eta_DC_network p) x (cl_eta_DC_frac_abs p) (cl_eta_DC_COP_abs p) (cl_frac_DC_free p) (cl_E_pumps p)
  | F_cl_eta_DC_frac_abs => mkCooling (cl_tempOcc p) (cl_tempUnocc p) (cl_cop p) (cl_partialLoadValue p) (cl_hvacLossFactor p) (cl_pumpControlReduction p) (cl_forcedAir p) (cl_T_ctrl_flag p) (cl_dT_supp p) (cl_DC_YesNo p) (cl_eta_DC_network p) (cl_eta_DC_COP p) x (cl_eta_DC_COP_abs p) (cl_frac_DC_free p) (cl_E_pumps p)
  | F_cl_eta_DC_COP_abs => mkCooling (cl_tempOcc p) (cl_tempUnocc p) (cl_cop p) (cl_partialLoadValue p) (cl_hvacLossFactor p) (cl_pumpControlReduction p) (cl_forcedAir p) (cl_T_ctrl_flag p) (cl_dT_supp p) (cl_DC_YesNo p) (cl_eta_DC_network p) (cl_eta_DC_COP p) (cl_eta_DC_frac_abs p) x (cl_frac_DC_free p) (cl_E_pumps p)
  | F_cl_frac_DC_free => mkCooling (cl_tempOcc p) (cl_tempUnocc p) (cl_cop p) (cl_partialLoadValue p) (cl_hvacLossFactor p) (cl_pumpControlReduction p) (cl_forcedAir p) (cl_T_ctrl_flag p) (cl_dT_supp p) (cl_DC_YesNo p) (cl_eta_DC_network p) (cl_eta_DC_COP p) (cl_eta_DC_frac_abs p) (cl_eta_DC_COP_abs p) x (cl_E_pumps p)
  | F_cl_E_pumps => mkCooling (cl_tempOcc p) (cl_tempUnocc p) (cl_cop p) (cl_partialLoadValue p) (cl_hvacLossFactor p) (cl_pumpControlReduction p) (cl_forcedAir p) (cl_T_ctrl_flag p) (cl_dT_supp p) (cl_DC_YesNo p) (cl_eta_DC_network p) (cl_eta_DC_COP p) (cl_eta_DC_frac_abs p) (cl_eta_DC_COP_abs p) (cl_frac_DC_free p) x
  end.
Definition set_ventilation_field {T} (f : ventilation_field) (x : T) (p : ventilation_t T) : ventilation_t T :=
  match f with
  | F_ve_supplyRate => mkVentilation x (ve_supplyDifference p) (ve_heatRecoveryEfficiency p) (ve_exhaustAirRecirculated p) (ve_type p) (ve_fanPower p) (ve_fanControlFactor p) (ve_preheat p) (ve_n50 p) (ve_hzone p) (ve_p_exp p) (ve_zone_frac p) (ve_stack_exp p) (ve_stack_coeff p) (ve_wind_exp p) (ve_wind_coeff p) (ve_dCp p) (ve_vent_rate_flag p) (ve_H_ve p)
  | F_ve_supplyDifference => mkVentilation (ve_supplyRate p) x (ve_heatRecoveryEfficiency p) (ve_exhaustAirRecirculated p) (ve_type p) (ve_fanPower p) (ve_fanControlFactor p) (ve_preheat p) (ve_n50 p) (ve_hzone p) (ve_p_exp p) (ve_zone_frac p) (ve_stack_exp p) (ve_stack_coeff p) (ve_wind_exp p) (ve_wind_coeff p) (ve_dCp p) (ve_vent_rate_flag p) (ve_H_ve p)
  | F_ve_heatRecoveryEfficiency => mkVentilation (ve_supplyRate p) (ve_supplyDifference p) x (ve_exhaustAirRecirculated p) (ve_type p) (ve_fanPower p) (ve_fanControlFactor p) (ve_preheat p) (ve_n50 p) (ve_hzone p) (ve_p_exp p) (ve_zone_frac p) (ve_stack_exp p) (ve_stack_coeff p) (ve_wind_exp p) (ve_wind_coeff p) (ve_dCp p) (ve_vent_rate_flag p) (ve_H_ve p)
  | F_ve_exhaustAirRecirculated => mkVentilation (ve_supplyRate p) (ve_supplyDifference p) (ve_heatRecoveryEfficiency p) x (ve_type p) (ve_fanPower p) (ve_fanControlFactor p) (ve_preheat p) (ve_n50 p) (ve_hzone p) (ve_p_exp p) (ve_zone_frac p) (ve_stack_exp p) (ve_stack_coeff p) (ve_wind_exp p) (ve_wind_coeff p) (ve_dCp p) (ve_vent_rate_flag p) (ve_H_ve p)
  | F_ve_fanPower => mkVentilation (ve_supplyRate p) (ve_supplyDifference p) (ve_heatRecoveryEfficiency p) (ve_exhaustAirRecirculated p) (ve_type p) x (ve_fanControlFactor p) (ve_preheat p) (ve_n50 p) (ve_hzone p) (ve_p_exp p) (ve_zone_frac p) (ve_stack_exp p) (ve_stack_coeff p) (ve_wind_exp p) (ve_wind_coeff p) (ve_dCp p) (ve_vent_rate_flag p) (ve_H_ve p)
  | F_ve_fanControlFactor => mkVentilation (ve_supplyRate p) (ve_supplyDifference p) (ve_heatRecoveryEfficiency p) (ve_exhaustAirRecirculated p) (ve_type p) (ve_fanPower p) x (ve_preheat p) (ve_n50 p) (ve_hzone p) (ve_p_exp p) (ve_zone_frac p) (ve_stack_exp p) (ve_stack_coeff p) (ve_wind_exp p) (ve_wind_coeff p) (ve_dCp p) (ve_vent_rate_flag p) (ve_H_ve p)
  | F_ve_preheat => mkVentilation (ve_supplyRate p) (ve_supplyDifference p) (ve_heatRecoveryEfficiency p) (ve_exhaustAirRecirculated p) (ve_type p) (ve_fanPower p) (ve_fanControlFactor p) x (ve_n50 p) (ve_hzone p) (ve_p_exp p) (ve_zone_frac p) (ve_stack_exp p) (ve_stack_coeff p) (ve_wind_exp p) (ve_wind_coeff p) (ve_dCp p) (ve_vent_rate_flag p) (ve_H_ve p)
  | F_ve_n50 => mkVentilation (ve_supplyRate p) (ve_supplyDifference p) (ve_heatRecoveryEfficiency p) (ve_exhaustAirRecirculated p) (ve_type p) (ve_fanPower p) (ve_fanControlFactor p) (ve_preheat p) x (ve_hzone p) (ve_p_exp p) (ve_zone_frac p) (ve_stack_exp p) (ve_stack_coeff p) (ve_wind_exp p) (ve_wind_coeff p) (ve_dCp p) (ve_vent_rate_flag p) (ve_H_ve p)
  | F_ve_hzone => mkVentilation (ve_supplyRate p) (ve_supplyDifference p) (ve_heatRecoveryEfficiency p) (ve_exhaustAirRecirculated p) (ve_type p) (ve_fanPower p) (ve_fanControlFactor p) (ve_preheat p) (ve_n50 p) x (ve_p_exp p) (ve_zone_frac p) (ve_stack_exp p) (ve_stack_coeff p) (ve_wind_exp p) (ve_wind_coeff p) (ve_dCp p) (ve_vent_rate_flag p) (ve_H_ve p)
  | F_ve_p_exp => mkVentilation (ve_supplyRate p) (ve_supplyDifference p) (ve_heatRecoveryEfficiency p) (ve_exhaustAirRecirculated p) (ve_type p) (ve_fanPower p) (ve_fanControlFactor p) (ve_preheat p) (ve_n50 p) (ve_hzone p) x (ve_zone_frac p) (ve_stack_exp p) (ve_stack_coeff p) (ve_wind_exp p) (ve_wind_coeff p) (ve_dCp p) (ve_vent_rate_flag p) (ve_H_ve p)
  | F_ve_zone_frac => mkVentilation (ve_supplyRate p) (ve_supplyDifference p) (ve_heatRecoveryEfficiency p) (ve_exhaustAirRecirculated p) (ve_type p) (ve_fanPower p) (ve_fanControlFactor p) (ve_preheat p) (ve_n50 p) (ve_hzone p) (ve_p_exp p) x (ve_stack_exp p) (ve_stack_coeff p) (ve_wind_exp p) (ve_wind_coeff p) (ve_dCp p) (ve_vent_rate_flag p) (ve_H_ve p)
  | F_ve_stack_exp => mkVentilation (ve_supplyRate p) (ve_supplyDifference p) (ve_heatRecoveryEfficiency p) (ve_exhaustAirRecirculated p) (ve_type p) (ve_fanPower p) (ve_fanControlFactor p) (ve_preheat p) (ve_n50 p) (ve_hzone p) (ve_p_exp p) (ve_zone_frac p) x (ve_stack_coeff p) (ve_wind_exp p) (ve_wind_coeff p) (ve_dCp p) (ve_vent_rate_flag p) (ve_H_ve p)
  | F_ve_stack_coeff => mkVentilation (ve_supplyRate p) (ve_supplyDifference p) (ve_heatRecoveryEfficiency p) (ve_exhaustAirRecirculated p) (ve_type p) (ve_fanPower p) (ve_fanControlFactor p) (ve_preheat p) (ve_n50 p) (ve_hzone p) (ve_p_exp p) (ve_zone_frac p) (ve_stack_exp p) x (ve_wind_exp p) (ve_wind_coeff p) (ve_dCp p) (ve_vent_rate_flag p) (ve_H_ve p)
  | F_ve_wind_exp => mkVentilation (ve_supplyRate p) (ve_supplyDifference p) (ve_heatRecoveryEfficiency p) (ve_exhaustAirRecirculated p) (ve_type p) (ve_fanPower p) (ve_fanControlFactor p) (ve_preheat p) (ve_n50 p) (ve_hzone p) (ve_p_exp p) (ve_zone_frac p) (ve_stack_exp p) (ve_stack_coeff p) x (ve_wind_coeff p) (ve_dCp p) (ve_vent_rate_flag p) (ve_H_ve p)
  | F_ve_wind_coeff => mkVentilation (ve_supplyRate p) (ve_supplyDifference p) (ve_heatRecoveryEfficiency p) (ve_exhaustAirRecirculated p) (ve_type p) (ve_fanPower p) (ve_fanControlFactor p) (ve_preheat p) (ve_n50 p) (ve_hzone p) (ve_p_exp p) (ve_zone_frac p) (ve_stack_exp p) (ve_stack_coeff p) (ve_wind_exp p) x (ve_dCp p) (ve_vent_rate_flag p) (ve_H_ve p)
  | F_ve_dCp => mkVentilation (ve_supplyRate p) (ve_supplyDifference p) (ve_heatRecoveryEfficiency p) (ve_exhaustAirRecirculated p) (ve_type p) (ve_fanPower p) (ve_fanControlFactor p) (ve_preheat p) (ve_n50 p) (ve_hzone p) (ve_p_exp p) (ve_zone_frac p) (ve_stack_exp p) (ve_stack_coeff p) (ve_wind_exp p) (ve_wind_coeff p) x (ve_vent_rate_flag p) (ve_H_ve p)
  | F_ve_H_ve => mkVentilation (ve_supplyRate p) (ve_supplyDifference p) (ve_heatRecoveryEfficiency p) (ve_exhaustAirRecirculated p) (ve_type p) (ve_fanPower p) (ve_fanControlFactor p) (ve_preheat p) (ve_n50 p) (ve_hzone p) (ve_p_exp p) (ve_zone_frac p) (ve_stack_exp p) (ve_stack_coeff p) (ve_wind_exp p) (ve_wind_coeff p) (ve_dCp p) (ve_vent_rate_flag p) x
  end.
Definition set_lighting_field {T} (f : lighting_field) (x : T) (p : lighting_t T) : lighting_t T :=
  match f with
  | F_li_densityOcc => mkLighting x (li_densityUnocc p) (li_dimmingFraction p) (li_exteriorEnergy p) (li_n_day_start p) (li_n_day_end p) (li_n_weeks p) (li_elecInternalGains p) (li_permLightPowerDensity p) (li_presenceSensorAd p) (li_automaticAd p) (li_presenceAutoAd p) (li_manualSwitchAd p) (li_presenceSensorLux p) (li_automaticLux p) (li_presenceAutoLux p) (li_manualSwitchLux p) (li_naturallyLightedArea p)
  | F_li_densityUnocc => mkLighting (li_densityOcc p) x (li_dimmingFraction p) (li_exteriorEnergy p) (li_n_day_start p) (li_n_day_end p) (li_n_weeks p) (li_elecInternalGains p) (li_permLightPowerDensity p) (li_presenceSensorAd p) (li_automaticAd p) (li_presenceAutoAd p) (li_manualSwitchAd p) (li_presenceSensorLux p) (li_automaticLux p) (li_presenceAutoLux p) (li_manualSwitchLux p) (li_naturallyLightedArea p)
  | F_li_exteriorEnergy => mkLighting (li_densityOcc p) (li_densityUnocc p) (li_dimmingFraction p) x (li_n_day_start p) (li_n_day_end p) (li_n_weeks p) (li_elecInternalGains p) (li_permLightPowerDensity p) (li_presenceSensorAd p) (li_automaticAd p) (li_presenceAutoAd p) (li_manualSwitchAd p) (li_presenceSensorLux p) (li_automaticLux p) (li_presenceAutoLux p) (li_manualSwitchLux p) (li_naturallyLightedArea p)
  | F_li_dimmingFraction => mkLighting (li_densityOcc p) (li_densityUnocc p) x (li_exteriorEnergy p) (li_n_day_start p) (li_n_day_end p) (li_n_weeks p) (li_elecInternalGains p) (li_permLightPowerDensity p) (li_presenceSensorAd p) (li_automaticAd p) (li_presenceAutoAd p) (li_manualSwitchAd p) (li_presenceSensorLux p) (li_automaticLux p) (li_presenceAutoLux p) (li_manualSwitchLux p) (li_naturallyLightedArea p)
  | F_li_n_day_start => mkLighting (li_densityOcc p) (li_densityUnocc p) (li_dimmingFraction p) (li_exteriorEnergy p) x (li_n_day_end p) (li_n_weeks p) (li_elecInternalGains p) (li_permLightPowerDensity p) (li_presenceSensorAd p) (li_automaticAd p) (li_presenceAutoAd p) (li_manualSwitchAd p) (li_presenceSensorLux p) (li_automaticLux p) (li_presenceAutoLux p) (li_manualSwitchLux p) (li_naturallyLightedArea p)
  | F_li_n_day_end => mkLighting (li_densityOcc p) (li_densityUnocc p) (li_dimmingFraction p) (li_exteriorEnergy p) (li_n_day_start p) x (li_n_weeks p) (li_elecInternalGains p) (li_permLightPowerDensity p) (li_presenceSensorAd p) (li_automaticAd p) (li_presenceAutoAd p) (li_manualSwitchAd p) (li_presenceSensorLux p) (li_automaticLux p) (li_presenceAutoLux p) (li_manualSwitchLux p) (li_naturallyLightedArea p)
  | F_li_n_weeks => mkLighting (li_densityOcc p) (li_densityUnocc p) (li_dimmingFraction p) (li_exteriorEnergy p) (li_n_day_start p) (li_n_day_end p) x (li_elecInternalGains p) (li_permLightPowerDensity p) (li_presenceSensorAd p) (li_automaticAd p) (li_presenceAutoAd p) (li_manualSwitchAd p) (li_presenceSensorLux p) (li_automaticLux p) (li_presenceAutoLux p) (li_manualSwitchLux p) (li_naturallyLightedArea p)
  | F_li_elecInternalGains => mkLighting (li_densityOcc p) (li_densityUnocc p) (li_dimmingFraction p) (li_exteriorEnergy p) (li_n_day_start p) (li_n_day_end p) (li_n_weeks p) x (li_permLightPowerDensity p) (li_presenceSensorAd p) (li_automaticAd p) (li_presenceAutoAd p) (li_manualSwitchAd p) (li_presenceSensorLux p) (li_automaticLux p) (li_presenceAutoLux p) (li_manualSwitchLux p) (li_naturallyLightedArea p)
  | F_li_permLightPowerDensity => mkLighting (li_densityOcc p) (li_densityUnocc p) (li_dimmingFraction p) (li_exteriorEnergy p) (li_n_day_start p) (li_n_day_end p) (li_n_weeks p) (li_elecInternalGains p) x (li_presenceSensorAd p) (li_automaticAd p) (li_presenceAutoAd p) (li_manualSwitchAd p) (li_presenceSensorLux p) (li_automaticLux p) (li_presenceAutoLux p) (li_manualSwitchLux p) (li_naturallyLightedArea p)
  | F_li_presenceSensorAd => mkLighting (li_densityOcc p) (li_densityUnocc p) (li_dimmingFraction p) (li_exteriorEnergy p) (li_n_day_start p) (li_n_day_end p) (li_n_weeks p) (li_elecInternalGains p) (li_permLightPowerDensity p) x (li_automaticAd p) (li_presenceAutoAd p) (li_manualSwitchAd p) (li_presenceSensorLux p) (li_automaticLux p) (li_presenceAutoLux p) (li_manualSwitchLux p) (li_naturallyLightedArea p)
  | F_li_automaticAd => mkLighting (li_densityOcc p) (li_densityUnocc p) (li_dimmingFraction p) (li_exteriorEnergy p) (li_n_day_start p) (li_n_day_end p) (li_n_weeks p) (li_elecInternalGains p) (li_permLightPowerDensity p) (li_presenceSensorAd p) x (li_presenceAutoAd p) (li_manualSwitchAd p) (li_presenceSensorLux p) (li_automaticLux p) (li_presenceAutoLux p) (li_manualSwitchLux p) (li_naturallyLightedArea p)
  | F_li_presenceAutoAd => mkLighting (li_densityOcc p) (li_densityUnocc p) (li_dimmingFraction p) (li_exteriorEnergy p) (li_n_day_start p) (li_n_day_end p) (li_n_weeks p) (li_elecInternalGains p) (li_permLightPowerDensity p) (li_presenceSensorAd p) (li_automaticAd p) x (li_manualSwitchAd p) (li_presenceSensorLux p) (li_automaticLux p) (li_presenceAutoLux p) (li_manualSwitchLux p) (li_naturallyLightedArea p)
  | F_li_manualSwitchAd => mkLighting (li_densityOcc p) (li_densityUnocc p) (li_dimmingFraction p) (li_exteriorEnergy p) (li_n_day_start p) (li_n_day_end p) (li_n_weeks p) (li_elecInternalGains p) (li_permLightPowerDensity p) (li_presenceSensorAd p) (li_automaticAd p) (li_presenceAutoAd p) x (li_presenceSensorLux p) (li_automaticLux p) (li_presenceAutoLux p) (li_manualSwitchLux p) (li_naturallyLightedArea p)
  | F_li_presenceSensorLux => mkLighting (li_densityOcc p) (li_densityUnocc p) (li_dimmingFraction p) (li_exteriorEnergy p) (li_n_day_start p) (li_n_day_end p) (li_n_weeks p) (li_elecInternalGains p) (li_permLightPowerDensity p) (li_presenceSensorAd p) (li_automaticAd p) (li_presenceAutoAd p) (li_manualSwitchAd p) x (li_automaticLux p) (li_presenceAutoLux p) (li_manualSwitchLux p) (li_naturallyLightedArea p)
  | F_li_automaticLux => mkLighting (li_densityOcc p) (li_densityUnocc p) (li_dimmingFraction p) (li_exteriorEnergy p) (li_n_day_start p) (li_n_day_end p) (li_n_weeks p) (li_elecInternalGains p) (li_permLightPowerDensity p) (li_presenceSensorAd p) (li_automaticAd p) (li_presenceAutoAd p) (li_manualSwitchAd p) (li_presenceSensorLux p) x (li_presenceAutoLux p) (li_manualSwitchLux p) (li_naturallyLightedArea p)
  | F_li_presenceAutoLux => mkLighting (li_densityOcc p) (li_densityUnocc p) (li_dimmingFraction p) (li_exteriorEnergy p) (li_n_day_start p) (li_n_day_end p) (li_n_weeks p) (li_elecInternalGains p) (li_permLightPowerDensity p) (li_presenceSensorAd p) (li_automaticAd p) (li_presenceAutoAd p) (li_manualSwitchAd p) (li_presenceSensorLux p) (li_automaticLux p) x (li_manualSwitchLux p) (li_naturallyLightedArea p)
  | F_li_manualSwitchLux => mkLighting (li_densityOcc p) (li_densityUnocc p) (li_dimmingFraction p) (li_exteriorEnergy p) (li_n_day_start p) (li_n_day_end p) (li_n_weeks p) (li_elecInternalGains p) (li_permLightPowerDensity p) (li_presenceSensorAd p) (li_automaticAd p) (li_presenceAutoAd p) (li_manualSwitchAd p) (li_presenceSensorLux p) (li_automaticLux p) (li_presenceAutoLux p) x (li_naturallyLightedArea p)
  | F_li_naturallyLightedArea => mkLighting (li_densityOcc p) (li_densityUnocc p) (li_dimmingFraction p) (li_exteriorEnergy p) (li_n_day_start p) (li_n_day_end p) (li_n_weeks p) (li_elecInternalGains p) (li_permLightPowerDensity p) (li_presenceSensorAd p) (li_automaticAd p) (li_presenceAutoAd p) (li_manualSwitchAd p) (li_presenceSensorLux p) (li_automaticLux p) (li_presenceAutoLux p) (li_manualSwitchLux p) x
  end.
Definition set_building_field {T} (f : building_field) (x : T) (p : building_t T) : building_t T :=
  match f with
  | F_bu_elecApplianceOcc => mkBuilding (bu_lightingOccupancySensor p) (bu_constantIllumination p) x (bu_elecApplianceUnocc p) (bu_gasApplianceOcc p) (bu_gasApplianceUnocc p) (bu_bem p) (bu_externalEquipment p)
  | F_bu_elecApplianceUnocc => mkBuilding (bu_lightingOccupancySensor p) (bu_constantIllumination p) (bu_elecApplianceOcc p) x (bu_gasApplianceOcc p) (bu_gasApplianceUnocc p) (bu_bem p) (bu_externalEquipment p)
  | F_bu_gasApplianceOcc => mkBuilding (bu_lightingOccupancySensor p) (bu_constantIllumination p) (bu_elecApplianceOcc p) (bu_elecApplianceUnocc p) x (bu_gasApplianceUnocc p) (bu_bem p) (bu_externalEquipment p)
  | F_bu_gasApplianceUnocc => mkBuilding (bu_lightingOccupancySensor p) (bu_constantIllumination p) (bu_elecApplianceOcc p) (bu_elecApplianceUnocc p) (bu_gasApplianceOcc p) x (bu_bem p) (bu_externalEquipment p)
  | F_bu_lightingOccupancySensor => mkBuilding x (bu_constantIllumination p) (bu_elecApplianceOcc p) (bu_elecApplianceUnocc p) (bu_gasApplianceOcc p) (bu_gasApplianceUnocc p) (bu_bem p) (bu_externalEquipment p)
  | F_bu_constantIllumination => mkBuilding (bu_lightingOccupancySensor p) x (bu_elecApplianceOcc p) (bu_elecApplianceUnocc p) (bu_gasApplianceOcc p) (bu_gasApplianceUnocc p) (bu_bem p) (bu_externalEquipment p)
  | F_bu_externalEquipment => mkBuilding (bu_lightingOccupancySensor p) (bu_constantIllumination p) (bu_elecApplianceOcc p) (bu_elecApplianceUnocc p) (bu_gasApplianceOcc p) (bu_gasApplianceUnocc p) (bu_bem p) x
  end.
Definition set_population_field {T} (f : population_field) (x : T) (p : population_t T) : population_t T :=
  match f with
  | F_po_daysStart => mkPopulation (po_hoursEnd p) (po_hoursStart p) (po_daysEnd p) x (po_densityOcc p) (po_densityUnocc p) (po_heatGainPerPerson p)
  | F_po_daysEnd => mkPopulation (po_hoursEnd p) (po_hoursStart p) x (po_daysStart p) (po_densityOcc p) (po_densityUnocc p) (po_heatGainPerPerson p)
  | F_po_hoursStart => mkPopulation (po_hoursEnd p) x (po_daysEnd p) (po_daysStart p) (po_densityOcc p) (po_densityUnocc p) (po_heatGainPerPerson p)
  | F_po_hoursEnd => mkPopulation x (po_hoursStart p) (po_daysEnd p) (po_daysStart p) (po_densityOcc p) (po_densityUnocc p) (po_heatGainPerPerson p)
  | F_po_densityOcc => mkPopulation (po_hoursEnd p) (po_hoursStart p) (po_daysEnd p) (po_daysStart p) x (po_densityUnocc p) (po_heatGainPerPerson p)
  | F_po_densityUnocc => mkPopulation (po_hoursEnd p) (po_hoursStart p) (po_daysEnd p) (po_daysStart p) (po_densityOcc p) x (po_heatGainPerPerson p)
  | F_po_heatGainPerPerson => mkPopulation (po_hoursEnd p) (po_hoursStart p) (po_daysEnd p) (po_daysStart p) (po_densityOcc p) (po_densityUnocc p) x
  end.
Definition set_settings_field {T} (f : settings_field) (x : T) (p : settings_t T) : settings_t T :=
  match f with
  | F_ss_phiIntFraction => mkSettings x (ss_phiSolFraction p) (ss_hci p) (ss_hri p)
  | F_ss_phiSolFraction => mkSettings (ss_phiIntFraction p) x (ss_hci p) (ss_hri p)
  | F_ss_hci => mkSettings (ss_phiIntFraction p) (ss_phiSolFraction p) x (ss_hri p)
  | F_ss_hri => mkSettings (ss_phiIntFraction p) (ss_phiSolFraction p) (ss_hci p) x
  end.
Definition set_phys_field {T} (f : phys_field) (x : T) (p : phys_t T) : phys_t T :=
  match f with
  | F_ph_rhoCpAir => mkPhys x (ph_rhoCpWater p)
  | F_ph_rhoCpWater => mkPhys (ph_rhoCpAir p) x
  end.
(** The setter for a parameter. *)
Definition set_num {T} (f : num_field) (x : T) (u : building_model T) : building_model T :=
  match f with
  | N_structure f => put_structure u (set_structure_field f x (pa_structure (bm_params u)))
  | N_heating f => put_heating u (set_heating_field f x (pa_heating (bm_params u)))
  | N_cooling f => put_cooling u (set_cooling_field f x (pa_cooling (bm_params u)))
  | N_ventilation f => put_ventilation u (set_ventilation_field f x (pa_ventilation (bm_params u)))
  | N_lighting f => put_lighting u (set_lighting_field f x (pa_lighting (bm_params u)))
  | N_building f => put_building u (set_building_field f x (pa_building (bm_params u)))
  | N_population f => put_population u (set_population_field f x (pa_population (bm_params u)))
  | N_settings f => put_settings u (set_settings_field f x (pa_settings (bm_params u)))
  | N_phys f => put_phys u (set_phys_field f x (pa_phys (bm_params u)))
  | N_terrain => let p := bm_params u in mkBuildingModel (mkParams (pa_structure p) (pa_heating p) (pa_cooling p) (pa_ventilation p) (pa_lighting p) (pa_building p) (pa_population p) (pa_settings p) (pa_phys p) x) (bm_weatherFilePath u)
  end.

(** The Boolean and integer setters (UserModel.hpp 415, 586, 2176). *)
Definition set_cl_forcedAir {T} (x : bool) (u : building_model T) : building_model T :=
  let p := pa_cooling (bm_params u) in put_cooling u (mkCooling (cl_tempOcc p) (cl_tempUnocc p) (cl_cop p) (cl_partialLoadValue p) (cl_hvacLossFactor p) (cl_pumpControlReduction p) x (cl_T_ctrl_flag p) (cl_dT_supp p) (cl_DC_YesNo p) (cl_eta_DC_network p) (cl_eta_DC_COP p) (cl_eta_DC_frac_abs p) (cl_eta_DC_COP_abs p) (cl_frac_DC_free p) (cl_E_pumps p)).
Definition set_ht_forcedAir {T} (x : bool) (u : building_model T) : building_model T :=
  let p := pa_heating (bm_params u) in put_heating u (mkHeating (ht_tempOcc p) (ht_tempUnocc p) (ht_hvacLossFactor p) (ht_efficiency p) (ht_energyType p) (ht_pumpControlReduction p) (ht_hotWaterDemand p) (ht_hotWaterDistributionEfficiency p) (ht_hotWaterSystemEfficiency p) (ht_hotWaterEnergyType p) (ht_hotcoldWasteFactor p) x (ht_dT_supp p) (ht_E_pumps p) (ht_T_ctrl_flag p) (ht_a_H0 p) (ht_tau_H0 p) (ht_DH_YesNo p) (ht_eta_DH_network p) (ht_eta_DH_sys p) (ht_frac_DH_free p) (ht_dhw_tset p) (ht_dhw_tsupply p)).
Definition set_ve_vent_rate_flag {T} (x : Z) (u : building_model T) : building_model T :=
  let p := pa_ventilation (bm_params u) in put_ventilation u (mkVentilation (ve_supplyRate p) (ve_supplyDifference p) (ve_heatRecoveryEfficiency p) (ve_exhaustAirRecirculated p) (ve_type p) (ve_fanPower p) (ve_fanControlFactor p) (ve_preheat p) (ve_n50 p) (ve_hzone p) (ve_p_exp p) (ve_zone_frac p) (ve_stack_exp p) (ve_stack_coeff p) (ve_wind_exp p) (ve_wind_coeff p) (ve_dCp p) x (ve_H_ve p)).

(** The nine vectors of Structure; the line is that of the UserModel.hpp setter, which throws
    std::invalid_argument unless the vector has 9 elements. *)
Inductive vec_field :=
| V_wallArea  (* 1219 *)
| V_wallU  (* 1483 *)
| V_wallEmissivity  (* 1395 *)
| V_wallAbsorption  (* 1307 *)
| V_windowArea  (* 1591 *)
| V_windowU  (* 1943 *)
| V_windowSHGC  (* 1855 *)
| V_windowSCF  (* 1679 *)
| V_windowSDF  (* 1767 *).
Definition put_vec {T} (f : vec_field) (x : list T) (p : structure_t T) : structure_t T :=
  match f with
  | V_wallArea => mkStructure (st_floorArea p) x (st_windowArea p) (st_wallU p) (st_windowU p) (st_wallEmissivity p) (st_wallAbsorption p) (st_windowSDF p) (st_windowSHGC p) (st_windowSCF p) (st_interiorHeatCapacity p) (st_wallHeatCapacity p) (st_buildingHeight p) (st_infiltrationRate p) (st_R_se p) (st_irradianceForMaxShadingUse p) (st_shadingFactorAtMaxUse p) (st_totalAreaPerFloorArea p) (st_win_ff p) (st_win_F_W p) (st_R_sc_ext p)
  | V_wallU => mkStructure (st_floorArea p) (st_wallArea p) (st_windowArea p) x (st_windowU p) (st_wallEmissivity p) (st_wallAbsorption p) (st_windowSDF p) (st_windowSHGC p) (st_windowSCF p) (st_interiorHeatCapacity p) (st_wallHeatCapacity p) (st_buildingHeight p) (st_infiltrationRate p) (st_R_se p) (st_irradianceForMaxShadingUse p) (st_shadingFactorAtMaxUse p) (st_totalAreaPerFloorArea p) (st_win_ff p) (st_win_F_W p) (st_R_sc_ext p)
  | V_wallEmissivity => mkStructure (st_floorArea p) (st_wallArea p) (st_windowArea p) (st_wallU p) (st_windowU p) x (st_wallAbsorption p) (st_windowSDF p) (st_windowSHGC p) (st_windowSCF p) (st_interiorHeatCapacity p) (st_wallHeatCapacity p) (st_buildingHeight p) (st_infiltrationRate p) (st_R_se p) (st_irradianceForMaxShadingUse p) (st_shadingFactorAtMaxUse p) (st_totalAreaPerFloorArea p) (st_win_ff p) (st_win_F_W p) (st_R_sc_ext p)
  | V_wallAbsorption => mkStructure (st_floorArea p) (st_wallArea p) (st_windowArea p) (st_wallU p) (st_windowU p) (st_wallEmissivity p) x (st_windowSDF p) (st_windowSHGC p) (st_windowSCF p) (st_interiorHeatCapacity p) (st_wallHeatCapacity p) (st_buildingHeight p) (st_infiltrationRate p) (st_R_se p) (st_irradianceForMaxShadingUse p) (st_shadingFactorAtMaxUse p) (st_totalAreaPerFloorArea p) (st_win_ff p) (st_win_F_W p) (st_R_sc_ext p)
  | V_windowArea => mkStructure (st_floorArea p) (st_wallArea p) x (st_wallU p) (st_windowU p) (st_wallEmissivity p) (st_wallAbsorption p) (st_windowSDF p) (st_windowSHGC p) (st_windowSCF p) (st_interiorHeatCapacity p) (st_wallHeatCapacity p) (st_buildingHeight p) (st_infiltrationRate p) (st_R_se p) (st_irradianceForMaxShadingUse p) (st_shadingFactorAtMaxUse p) (st_totalAreaPerFloorArea p) (st_win_ff p) (st_win_F_W p) (st_R_sc_ext p)
  | V_windowU => mkStructure (st_floorArea p) (st_wallArea p) (st_windowArea p) (st_wallU p) x (st_wallEmissivity p) (st_wallAbsorption p) (st_windowSDF p) (st_windowSHGC p) (st_windowSCF p) (st_interiorHeatCapacity p) (st_wallHeatCapacity p) (st_buildingHeight p) (st_infiltrationRate p) (st_R_se p) (st_irradianceForMaxShadingUse p) (st_shadingFactorAtMaxUse p) (st_totalAreaPerFloorArea p) (st_win_ff p) (st_win_F_W p) (st_R_sc_ext p)
  | V_windowSHGC => mkStructure (st_floorArea p) (st_wallArea p) (st_windowArea p) (st_wallU p) (st_windowU p) (st_wallEmissivity p) (st_wallAbsorption p) (st_windowSDF p) x (st_windowSCF p) (st_interiorHeatCapacity p) (st_wallHeatCapacity p) (st_buildingHeight p) (st_infiltrationRate p) (st_R_se p) (st_irradianceForMaxShadingUse p) (st_shadingFactorAtMaxUse p) (st_totalAreaPerFloorArea p) (st_win_ff p) (st_win_F_W p) (st_R_sc_ext p)
  | V_windowSCF => mkStructure (st_floorArea p) (st_wallArea p) (st_windowArea p) (st_wallU p) (st_windowU p) (st_wallEmissivity p) (st_wallAbsorption p) (st_windowSDF p) (st_windowSHGC p) x (st_interiorHeatCapacity p) (st_wallHeatCapacity p) (st_buildingHeight p) (st_infiltrationRate p) (st_R_se p) (st_irradianceForMaxShadingUse p) (st_shadingFactorAtMaxUse p) (st_totalAreaPerFloorArea p) (st_win_ff p) (st_win_F_W p) (st_R_sc_ext p)
  | V_windowSDF => mkStructure (st_floorArea p) (st_wallArea p) (st_windowArea p) (st_wallU p) (st_windowU p) (st_wallEmissivity p) (st_wallAbsorption p) x (st_windowSHGC p) (st_windowSCF p) (st_interiorHeatCapacity p) (st_wallHeatCapacity p) (st_buildingHeight p) (st_infiltrationRate p) (st_R_se p) (st_irradianceForMaxShadingUse p) (st_shadingFactorAtMaxUse p) (st_totalAreaPerFloorArea p) (st_win_ff p) (st_win_F_W p) (st_R_sc_ext p)
  end.
Definition set_vec {T} (f : vec_field) (x : list T) (u : building_model T) : outcome (building_model T) :=
  if Nat.eqb (List.length x) 9 then Ok (put_structure u (put_vec f x (pa_structure (bm_params u))))
  else Throw InvalidArgument.

(** UserModel.cpp 301-320, with reads and writes outside the vector undefined. *)
Definition swap_at {T} (v : list T) (i j : nat) : outcome (list T) :=
  do a <- vget v i; do b <- vget v j; do v1 <- vset v i b; vset v1 j a.
Definition northToSouth {T} (v : list T) : outcome (list T) :=
  do v1 <- swap_at v 0 4; do v2 <- swap_at v1 1 3; swap_at v2 5 7.

(** The text setters.  UserModel.hpp 137. *)
Definition set_WeatherFilePath {T} (s : text) (u : building_model T) : outcome (building_model T) :=
  Ok (mkBuildingModel (bm_params u) s).

(** UserModel.hpp 147, the overload taking a string. *)
Definition set_BemType {T} {N : Num T} (s : text) (u : building_model T) : outcome (building_model T) :=
  let type := lower s in let p := pa_building (bm_params u) in
  let code c := Ok (put_building u (mkBuilding (bu_lightingOccupancySensor p) (bu_constantIllumination p) (bu_elecApplianceOcc p) (bu_elecApplianceUnocc p) (bu_gasApplianceOcc p) (bu_gasApplianceUnocc p) (zn c) (bu_externalEquipment p))) in
  if text_eqb type "none"%string then code 1%Z
  else if text_eqb type "simple"%string then code 2%Z
  else if text_eqb type "advanced"%string then code 3%Z
  else Throw InvalidArgument.
(** UserModel.hpp 530, the overload taking a string. *)
Definition set_DhwEnergyCarrier {T} {N : Num T} (s : text) (u : building_model T) : outcome (building_model T) :=
  let type := lower s in let p := pa_heating (bm_params u) in
  let code c := Ok (put_heating u (mkHeating (ht_tempOcc p) (ht_tempUnocc p) (ht_hvacLossFactor p) (ht_efficiency p) (ht_energyType p) (ht_pumpControlReduction p) (ht_hotWaterDemand p) (ht_hotWaterDistributionEfficiency p) (ht_hotWaterSystemEfficiency p) (zn c) (ht_hotcoldWasteFactor p) (ht_forcedAir p) (ht_dT_supp p) (ht_E_pumps p) (ht_T_ctrl_flag p) (ht_a_H0 p) (ht_tau_H0 p) (ht_DH_YesNo p) (ht_eta_DH_network p) (ht_eta_DH_sys p) (ht_frac_DH_free p) (ht_dhw_tset p) (ht_dhw_tsupply p))) in
  if text_eqb type "electric"%string then code 1%Z
  else if text_eqb type "gas"%string then code 2%Z
  else Throw InvalidArgument.
(** UserModel.hpp 606, the overload taking a string. *)
Definition set_HeatingEnergyCarrier {T} {N : Num T} (s : text) (u : building_model T) : outcome (building_model T) :=
  let type := lower s in let p := pa_heating (bm_params u) in
  let code c := Ok (put_heating u (mkHeating (ht_tempOcc p) (ht_tempUnocc p) (ht_hvacLossFactor p) (ht_efficiency p) (zn c) (ht_pumpControlReduction p) (ht_hotWaterDemand p) (ht_hotWaterDistributionEfficiency p) (ht_hotWaterSystemEfficiency p) (ht_hotWaterEnergyType p) (ht_hotcoldWasteFactor p) (ht_forcedAir p) (ht_dT_supp p) (ht_E_pumps p) (ht_T_ctrl_flag p) (ht_a_H0 p) (ht_tau_H0 p) (ht_DH_YesNo p) (ht_eta_DH_network p) (ht_eta_DH_sys p) (ht_frac_DH_free p) (ht_dhw_tset p) (ht_dhw_tsupply p))) in
  if text_eqb type "electric"%string then code 1%Z
  else if text_eqb type "gas"%string then code 2%Z
  else Throw InvalidArgument.
(** UserModel.hpp 2206, the overload taking a string. *)
Definition set_VentilationType {T} {N : Num T} (s : text) (u : building_model T) : outcome (building_model T) :=
  let type := lower s in let p := pa_ventilation (bm_params u) in
  let code c := Ok (put_ventilation u (mkVentilation (ve_supplyRate p) (ve_supplyDifference p) (ve_heatRecoveryEfficiency p) (ve_exhaustAirRecirculated p) (zn c) (ve_fanPower p) (ve_fanControlFactor p) (ve_preheat p) (ve_n50 p) (ve_hzone p) (ve_p_exp p) (ve_zone_frac p) (ve_stack_exp p) (ve_stack_coeff p) (ve_wind_exp p) (ve_wind_coeff p) (ve_dCp p) (ve_vent_rate_flag p) (ve_H_ve p))) in
  if text_eqb type "mechanical"%string then code 1%Z
  else if text_eqb type "combined"%string then code 2%Z
  else if text_eqb type "natural"%string then code 3%Z
  else Throw InvalidArgument.

(** One call of initializeParameter (UserModel.cpp 257-299): the overload, the property name,
    whether it is required, and the setter. *)
Inductive binding (T : Type) :=
| BDouble (key : text) (required : bool) (f : num_field)
| BInt (key : text) (required : bool) (set : Z -> building_model T -> building_model T)
| BBool (key : text) (required : bool) (set : bool -> building_model T -> building_model T)
| BVec (key : text) (required : bool) (f : vec_field)
| BText (key : text) (required : bool) (set : text -> building_model T -> outcome (building_model T)).
Arguments BDouble {T}.
Arguments BInt {T}.
Arguments BBool {T}.
Arguments BVec {T}.
Arguments BText {T}.

Definition initializeParameter {T} (rd : reader T) (m : props) (u : building_model T) (b : binding T)
  : outcome (building_model T) :=
  let missing (required : bool) := if required then Throw InvalidArgument else Ok u in
  match b with
  | BDouble key required f =>
      do v <- getPropertyAsDouble rd m key;
      match v with Some x => Ok (set_num f x u) | None => missing required end
  | BInt key required set =>
      do v <- getPropertyAsInt rd m key;
      match v with Some x => Ok (set x u) | None => missing required end
  | BBool key required set =>
      match getPropertyAsBool m key with Some x => Ok (set x u) | None => missing required end
  | BVec key required f =>
      do v <- getPropertyAsDoubleVector rd m key;
      match v with Some x => do y <- northToSouth x; set_vec f y u | None => missing required end
  | BText key required set =>
      match getProperty m key with Some s => set s u | None => missing required end
  end.

(** UserModel.cpp 110-255, in the order of the source.  The block guarded by
    USE_NEW_BUILDING_PARAMS (176-188), compiled only into the unit tests, is in M_TestBuild.v. *)
Definition parameter_bindings {T} {N : Num T} : list (binding T) := [
  BDouble "terrainclass"%string true N_terrain;
  BDouble "buildingheight"%string true (N_structure F_st_buildingHeight);
  BDouble "floorarea"%string true (N_structure F_st_floorArea);
  BDouble "occupancydayfirst"%string true (N_population F_po_daysStart);
  BDouble "occupancydaylast"%string true (N_population F_po_daysEnd);
  BDouble "occupancyhourfirst"%string true (N_population F_po_hoursStart);
  BDouble "occupancyhourlast"%string true (N_population F_po_hoursEnd);
  BDouble "peopledensityoccupied"%string true (N_population F_po_densityOcc);
  BDouble "peopledensityunoccupied"%string true (N_population F_po_densityUnocc);
  BDouble "lightingpowerdensityoccupied"%string true (N_lighting F_li_densityOcc);
  BDouble "lightingpowerdensityunoccupied"%string true (N_lighting F_li_densityUnocc);
  BDouble "electricappliancepowerdensityoccupied"%string true (N_building F_bu_elecApplianceOcc);
  BDouble "electricappliancepowerdensityunoccupied"%string true (N_building F_bu_elecApplianceUnocc);
  BDouble "gasappliancepowerdensityoccupied"%string true (N_building F_bu_gasApplianceOcc);
  BDouble "gasappliancepowerdensityunoccupied"%string true (N_building F_bu_gasApplianceUnocc);
  BDouble "exteriorlightingpower"%string true (N_lighting F_li_exteriorEnergy);
  BDouble "hvacwastefactor"%string true (N_heating F_ht_hotcoldWasteFactor);
  BDouble "hvacheatinglossfactor"%string true (N_heating F_ht_hvacLossFactor);
  BDouble "hvaccoolinglossfactor"%string true (N_cooling F_cl_hvacLossFactor);
  BDouble "daylightsensordimmingfraction"%string true (N_lighting F_li_dimmingFraction);
  BDouble "lightingoccupancysensordimmingfraction"%string true (N_building F_bu_lightingOccupancySensor);
  BDouble "constantilluminationcontrolmultiplier"%string true (N_building F_bu_constantIllumination);
  BDouble "coolingsystemcop"%string true (N_cooling F_cl_cop);
  BDouble "coolingsystemiplvtocopratio"%string true (N_cooling F_cl_partialLoadValue);
  BDouble "heatingsystemefficiency"%string true (N_heating F_ht_efficiency);
  BText "heatingfueltype"%string true set_HeatingEnergyCarrier;
  BText "ventilationtype"%string true set_VentilationType;
  BText "dhwfueltype"%string true set_DhwEnergyCarrier;
  BText "bemtype"%string true set_BemType;
  BDouble "ventilationintakerateoccupied"%string true (N_ventilation F_ve_supplyRate);
  BDouble "ventilationExhaustRateOccupied"%string true (N_ventilation F_ve_supplyDifference);
  BDouble "heatrecovery"%string true (N_ventilation F_ve_heatRecoveryEfficiency);
  BDouble "exhaustairrecirculation"%string true (N_ventilation F_ve_exhaustAirRecirculated);
  BDouble "infiltrationrateoccupied"%string true (N_structure F_st_infiltrationRate);
  BDouble "dhwdemand"%string true (N_heating F_ht_hotWaterDemand);
  BDouble "dhwsystemefficiency"%string true (N_heating F_ht_hotWaterSystemEfficiency);
  BDouble "dhwdistributionefficiency"%string true (N_heating F_ht_hotWaterDistributionEfficiency);
  BDouble "interiorheatcapacity"%string true (N_structure F_st_interiorHeatCapacity);
  BDouble "exteriorheatcapacity"%string true (N_structure F_st_wallHeatCapacity);
  BDouble "heatingpumpcontrol"%string true (N_heating F_ht_pumpControlReduction);
  BDouble "coolingpumpcontrol"%string true (N_cooling F_cl_pumpControlReduction);
  BDouble "heatgainperperson"%string true (N_population F_po_heatGainPerPerson);
  BDouble "specificfanpower"%string true (N_ventilation F_ve_fanPower);
  BDouble "fanflowcontrolfactor"%string true (N_ventilation F_ve_fanControlFactor);
  BDouble "coolingsetpointoccupied"%string true (N_cooling F_cl_tempOcc);
  BDouble "coolingsetpointunoccupied"%string true (N_cooling F_cl_tempUnocc);
  BDouble "heatingsetpointoccupied"%string true (N_heating F_ht_tempOcc);
  BDouble "heatingsetpointunoccupied"%string true (N_heating F_ht_tempUnocc);
  BText "weatherfilepath"%string true set_WeatherFilePath;
  BDouble "externalequipment"%string false (N_building F_bu_externalEquipment);
  BBool "forcedaircooling"%string false set_cl_forcedAir;
  BDouble "t_cl_ctrl_flag"%string false (N_cooling F_cl_T_ctrl_flag);
  BDouble "dt_supp_cl"%string false (N_cooling F_cl_dT_supp);
  BDouble "dc_yesno"%string false (N_cooling F_cl_DC_YesNo);
  BDouble "eta_dc_network"%string false (N_cooling F_cl_eta_DC_network);
  BDouble "eta_dc_cop"%string false (N_cooling F_cl_eta_DC_COP);
  BDouble "eta_dc_frac_abs"%string false (N_cooling F_cl_eta_DC_frac_abs);
  BDouble "eta_dc_cop_abs"%string false (N_cooling F_cl_eta_DC_COP_abs);
  BDouble "frac_dc_free"%string false (N_cooling F_cl_frac_DC_free);
  BDouble "e_pumps_cl"%string false (N_cooling F_cl_E_pumps);
  BBool "forcedairheating"%string false set_ht_forcedAir;
  BDouble "dt_supp_ht"%string false (N_heating F_ht_dT_supp);
  BDouble "e_pumps_ht"%string false (N_heating F_ht_E_pumps);
  BDouble "t_ht_ctrl_flag"%string false (N_heating F_ht_T_ctrl_flag);
  BDouble "a_h0"%string false (N_heating F_ht_a_H0);
  BDouble "tau_h0"%string false (N_heating F_ht_tau_H0);
  BDouble "dh_yesno"%string false (N_heating F_ht_DH_YesNo);
  BDouble "eta_dh_network"%string false (N_heating F_ht_eta_DH_network);
  BDouble "eta_dh_sys"%string false (N_heating F_ht_eta_DH_sys);
  BDouble "frac_dh_free"%string false (N_heating F_ht_frac_DH_free);
  BDouble "dhw_tset"%string false (N_heating F_ht_dhw_tset);
  BDouble "dhw_tsupply"%string false (N_heating F_ht_dhw_tsupply);
  BDouble "n_day_start"%string false (N_lighting F_li_n_day_start);
  BDouble "n_day_end"%string false (N_lighting F_li_n_day_end);
  BDouble "n_weeks"%string false (N_lighting F_li_n_weeks);
  BDouble "elecinternalgains"%string false (N_lighting F_li_elecInternalGains);
  BDouble "permlightpowerdensity"%string false (N_lighting F_li_permLightPowerDensity);
  BDouble "presencesensorad"%string false (N_lighting F_li_presenceSensorAd);
  BDouble "automaticad"%string false (N_lighting F_li_automaticAd);
  BDouble "presenceautoad"%string false (N_lighting F_li_presenceAutoAd);
  BDouble "manualswitchad"%string false (N_lighting F_li_manualSwitchAd);
  BDouble "presencesensorlux"%string false (N_lighting F_li_presenceSensorLux);
  BDouble "automaticlux"%string false (N_lighting F_li_automaticLux);
  BDouble "presenceautolux"%string false (N_lighting F_li_presenceAutoLux);
  BDouble "manualswitchlux"%string false (N_lighting F_li_manualSwitchLux);
  BDouble "naturallylightedarea"%string false (N_lighting F_li_naturallyLightedArea);
  BDouble "rhocpair"%string false (N_phys F_ph_rhoCpAir);
  BDouble "rhocpwater"%string false (N_phys F_ph_rhoCpWater);
  BDouble "phiintfractiontoairnode"%string false (N_settings F_ss_phiIntFraction);
  BDouble "phisolfractiontoairnode"%string false (N_settings F_ss_phiSolFraction);
  BDouble "hci"%string false (N_settings F_ss_hci);
  BDouble "hri"%string false (N_settings F_ss_hri);
  BDouble "r_se"%string false (N_structure F_st_R_se);
  BDouble "irradianceformaxshadinguse"%string false (N_structure F_st_irradianceForMaxShadingUse);
  BDouble "shadingfactoratmaxuse"%string false (N_structure F_st_shadingFactorAtMaxUse);
  BDouble "totalareaperfloorarea"%string false (N_structure F_st_totalAreaPerFloorArea);
  BDouble "win_ff"%string false (N_structure F_st_win_ff);
  BDouble "win_f_w"%string false (N_structure F_st_win_F_W);
  BDouble "r_sc_ext"%string false (N_structure F_st_R_sc_ext);
  BDouble "ventpreheatdegc"%string false (N_ventilation F_ve_preheat);
  BDouble "n50"%string false (N_ventilation F_ve_n50);
  BDouble "hzone"%string false (N_ventilation F_ve_hzone);
  BDouble "p_exp"%string false (N_ventilation F_ve_p_exp);
  BDouble "zone_frac"%string false (N_ventilation F_ve_zone_frac);
  BDouble "stack_exp"%string false (N_ventilation F_ve_stack_exp);
  BDouble "stack_coeff"%string false (N_ventilation F_ve_stack_coeff);
  BDouble "wind_exp"%string false (N_ventilation F_ve_wind_exp);
  BDouble "wind_coeff"%string false (N_ventilation F_ve_wind_coeff);
  BDouble "dcp"%string false (N_ventilation F_ve_dCp);
  BInt "vent_rate_flag"%string false set_ve_vent_rate_flag;
  BDouble "h_ve"%string false (N_ventilation F_ve_H_ve)].
(** UserModel.cpp 97-108. *)
Definition structure_bindings {T} : list (binding T) := [
  BVec "wallArea"%string true V_wallArea;
  BVec "wallU"%string true V_wallU;
  BVec "wallEmissivity"%string true V_wallEmissivity;
  BVec "wallAbsorption"%string true V_wallAbsorption;
  BVec "windowArea"%string true V_windowArea;
  BVec "windowU"%string true V_windowU;
  BVec "windowSHGC"%string true V_windowSHGC;
  BVec "windowSCF"%string true V_windowSCF;
  BVec "windowSDF"%string true V_windowSDF].

Definition initializeParameters {T} {N : Num T} (rd : reader T) (m : props) (u : building_model T)
  : outcome (building_model T) := ofold (initializeParameter rd m) parameter_bindings u.
Definition initializeStructure {T} (rd : reader T) (m : props) (u : building_model T)
  : outcome (building_model T) := ofold (initializeParameter rd m) structure_bindings u.

(** UserModel.cpp 322-327 and 329-334.  When something throws, the members assigned before
    stay assigned; the model returns only the exception. *)
Definition loadBuilding {T} {N : Num T} (rd : reader T) (file : option text) (u : building_model T)
  : outcome (building_model T) :=
  do m <- propertiesOf file; do u1 <- initializeParameters rd m u; initializeStructure rd m u1.
Definition loadBuilding2 {T} {N : Num T} (rd : reader T) (file defaults : option text) (u : building_model T)
  : outcome (building_model T) :=
  do m <- propertiesOf2 file defaults; do u1 <- initializeParameters rd m u; initializeStructure rd m u1.

