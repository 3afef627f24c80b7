(** The public accessors of UserModel (UserModel.hpp 105-2260): each reads or assigns one member of
    a parameter object. *)
From Coq Require Import Ascii String.
From Verif Require Import Base Num Text M_Text M_Properties M_Params M_UserModel.
Open Scope list_scope.

(** Members that are read and assigned only by their accessors: Building.hpp 190-193, Lighting.hpp
    280-281, Ventilation.hpp 329-331. *)
Record extra_t (T : Type) := mkExtra {
  ex_electricAppliancePowerFixedOccupied : T;
  ex_electricAppliancePowerFixedUnoccupied : T;
  ex_gasAppliancePowerFixedOccupied : T;
  ex_gasAppliancePowerFixedUnoccupied : T;
  ex_lightingPowerFixedOccupied : T;
  ex_lightingPowerFixedUnoccupied : T;
  ex_infiltrationRateUnoccupied : T;
  ex_ventilationExhaustRateUnoccupied : T;
  ex_ventilationIntakeRateUnoccupied : T }.
Arguments mkExtra {T}.
Arguments ex_electricAppliancePowerFixedOccupied {T}.
Arguments ex_electricAppliancePowerFixedUnoccupied {T}.
Arguments ex_gasAppliancePowerFixedOccupied {T}.
Arguments ex_gasAppliancePowerFixedUnoccupied {T}.
Arguments ex_lightingPowerFixedOccupied {T}.
Arguments ex_lightingPowerFixedUnoccupied {T}.
Arguments ex_infiltrationRateUnoccupied {T}.
Arguments ex_ventilationExhaustRateUnoccupied {T}.
Arguments ex_ventilationIntakeRateUnoccupied {T}.

(** UserModel.hpp 2262-2290: the members with accessors, except the weather and the validity flag
    (M_Weather.v); [us_schedule] is m_scheduleFilePath of Population.hpp 139. *)
Record user_state (T : Type) := mkUserState {
  us_model : building_model T;
  us_extra : extra_t T;
  us_schedule : text }.
Arguments mkUserState {T}.
Arguments us_model {T}.
Arguments us_extra {T}.
Arguments us_schedule {T}.

(** Where an accessor reads or writes. *)
Inductive extra_field :=
| X_ElectricAppliancePowerFixedOccupied
| X_ElectricAppliancePowerFixedUnoccupied
| X_GasAppliancePowerFixedOccupied
| X_GasAppliancePowerFixedUnoccupied
| X_LightingPowerFixedOccupied
| X_LightingPowerFixedUnoccupied
| X_InfiltrationRateUnoccupied
| X_VentilationExhaustRateUnoccupied
| X_VentilationIntakeRateUnoccupied.
Inductive code_field := C_bem | C_dhw | C_heating | C_ventilation.
Inductive slot :=
| S_num (f : num_field)
| S_code (f : code_field)
| S_extra (f : extra_field)
| S_rate_flag
| S_elem (f : vec_field) (i : nat).

(** The getters of the parameter objects return the member named in M_Params.v. *)
Definition get_structure_field {T} (f : structure_field) (p : structure_t T) : T :=
  match f with
  | F_st_buildingHeight => st_buildingHeight p
  | F_st_floorArea => st_floorArea p
  | F_st_infiltrationRate => st_infiltrationRate p
  | F_st_interiorHeatCapacity => st_interiorHeatCapacity p
  | F_st_wallHeatCapacity => st_wallHeatCapacity p
  | F_st_R_se => st_R_se p
  | F_st_irradianceForMaxShadingUse => st_irradianceForMaxShadingUse p
  | F_st_shadingFactorAtMaxUse => st_shadingFactorAtMaxUse p
  | F_st_totalAreaPerFloorArea => st_totalAreaPerFloorArea p
  | F_st_win_ff => st_win_ff p
  | F_st_win_F_W => st_win_F_W p
  | F_st_R_sc_ext => st_R_sc_ext p
  end.
Definition get_heating_field {T} (f : heating_field) (p : heating_t T) : T :=
  match f with
  | F_ht_hotcoldWasteFactor => ht_hotcoldWasteFactor p
  | F_ht_hvacLossFactor => ht_hvacLossFactor p
  | F_ht_efficiency => ht_efficiency p
  | F_ht_hotWaterDemand => ht_hotWaterDemand p
  | F_ht_hotWaterSystemEfficiency => ht_hotWaterSystemEfficiency p
  | F_ht_hotWaterDistributionEfficiency => ht_hotWaterDistributionEfficiency p
  | F_ht_pumpControlReduction => ht_pumpControlReduction p
  | F_ht_tempOcc => ht_tempOcc p
  | F_ht_tempUnocc => ht_tempUnocc p
  | F_ht_dT_supp => ht_dT_supp p
  | F_ht_E_pumps => ht_E_pumps p
  | F_ht_T_ctrl_flag => ht_T_ctrl_flag p
  | F_ht_a_H0 => ht_a_H0 p
  | F_ht_tau_H0 => ht_tau_H0 p
  | F_ht_DH_YesNo => ht_DH_YesNo p
  | F_ht_eta_DH_network => ht_eta_DH_network p
  | F_ht_eta_DH_sys => ht_eta_DH_sys p
  | F_ht_frac_DH_free => ht_frac_DH_free p
  | F_ht_dhw_tset => ht_dhw_tset p
  | F_ht_dhw_tsupply => ht_dhw_tsupply p
  end.
Definition get_cooling_field {T} (f : cooling_field) (p : cooling_t T) : T :=
  match f with
  | F_cl_hvacLossFactor => cl_hvacLossFactor p
  | F_cl_cop => cl_cop p
  | F_cl_partialLoadValue => cl_partialLoadValue p
  | F_cl_pumpControlReduction => cl_pumpControlReduction p
  | F_cl_tempOcc => cl_tempOcc p
  | F_cl_tempUnocc => cl_tempUnocc p
  | F_cl_T_ctrl_flag => cl_T_ctrl_flag p
  | F_cl_dT_supp => cl_dT_supp p
  | F_cl_DC_YesNo => cl_DC_YesNo p
  | F_cl_eta_DC_network => cl_eta_DC_network p
  | F_cl_eta_DC_COP => cl_eta_DC_COP p
  | F_cl_eta_DC_frac_abs => cl_eta_DC_frac_abs p
  | F_cl_eta_DC_COP_abs => cl_eta_DC_COP_abs p
  | F_cl_frac_DC_free => cl_frac_DC_free p
  | F_cl_E_pumps => cl_E_pumps p
  end.
Definition get_ventilation_field {T} (f : ventilation_field) (p : ventilation_t T) : T :=
  match f with
  | F_ve_supplyRate => ve_supplyRate p
  | F_ve_supplyDifference => ve_supplyDifference p
  | F_ve_heatRecoveryEfficiency => ve_heatRecoveryEfficiency p
  | F_ve_exhaustAirRecirculated => ve_exhaustAirRecirculated p
  | F_ve_fanPower => ve_fanPower p
  | F_ve_fanControlFactor => ve_fanControlFactor p
  | F_ve_preheat => ve_preheat p
  | F_ve_n50 => ve_n50 p
  | F_ve_hzone => ve_hzone p
  | F_ve_p_exp => ve_p_exp p
  | F_ve_zone_frac => ve_zone_frac p
  | F_ve_stack_exp => ve_stack_exp p
  | F_ve_stack_coeff => ve_stack_coeff p
  | F_ve_wind_exp => ve_wind_exp p
  | F_ve_wind_coeff => ve_wind_coeff p
  | F_ve_dCp => ve_dCp p
  | F_ve_H_ve => ve_H_ve p
  end.
Definition get_lighting_field {T} (f : lighting_field) (p : lighting_t T) : T :=
  match f with
  | F_li_densityOcc => li_densityOcc p
  | F_li_densityUnocc => li_densityUnocc p
  | F_li_exteriorEnergy => li_exteriorEnergy p
  | F_li_dimmingFraction => li_dimmingFraction p
  | F_li_n_day_start => li_n_day_start p
  | F_li_n_day_end => li_n_day_end p
  | F_li_n_weeks => li_n_weeks p
  | F_li_elecInternalGains => li_elecInternalGains p
  | F_li_permLightPowerDensity => li_permLightPowerDensity p
  | F_li_presenceSensorAd => li_presenceSensorAd p
  | F_li_automaticAd => li_automaticAd p
  | F_li_presenceAutoAd => li_presenceAutoAd p
  | F_li_manualSwitchAd => li_manualSwitchAd p
  | F_li_presenceSensorLux => li_presenceSensorLux p
  | F_li_automaticLux => li_automaticLux p
  | F_li_presenceAutoLux => li_presenceAutoLux p
  | F_li_manualSwitchLux => li_manualSwitchLux p
  | F_li_naturallyLightedArea => li_naturallyLightedArea p
  end.
Definition get_building_field {T} (f : building_field) (p : building_t T) : T :=
  match f with
  | F_bu_elecApplianceOcc => bu_elecApplianceOcc p
  | F_bu_elecApplianceUnocc => bu_elecApplianceUnocc p
  | F_bu_gasApplianceOcc => bu_gasApplianceOcc p
  | F_bu_gasApplianceUnocc => bu_gasApplianceUnocc p
  | F_bu_lightingOccupancySensor => bu_lightingOccupancySensor p
  | F_bu_constantIllumination => bu_constantIllumination p
  | F_bu_externalEquipment => bu_externalEquipment p
  end.
Definition get_population_field {T} (f : population_field) (p : population_t T) : T :=
  match f with
  | F_po_daysStart => po_daysStart p
  | F_po_daysEnd => po_daysEnd p
  | F_po_hoursStart => po_hoursStart p
  | F_po_hoursEnd => po_hoursEnd p
  | F_po_densityOcc => po_densityOcc p
  | F_po_densityUnocc => po_densityUnocc p
  | F_po_heatGainPerPerson => po_heatGainPerPerson p
  end.
Definition get_settings_field {T} (f : settings_field) (p : settings_t T) : T :=
  match f with
  | F_ss_phiIntFraction => ss_phiIntFraction p
  | F_ss_phiSolFraction => ss_phiSolFraction p
  | F_ss_hci => ss_hci p
  | F_ss_hri => ss_hri p
  end.
Definition get_phys_field {T} (f : phys_field) (p : phys_t T) : T :=
  match f with
  | F_ph_rhoCpAir => ph_rhoCpAir p
  | F_ph_rhoCpWater => ph_rhoCpWater p
  end.
Definition get_num {T} (f : num_field) (u : building_model T) : T :=
  match f with
  | N_structure f => get_structure_field f (pa_structure (bm_params u))
  | N_heating f => get_heating_field f (pa_heating (bm_params u))
  | N_cooling f => get_cooling_field f (pa_cooling (bm_params u))
  | N_ventilation f => get_ventilation_field f (pa_ventilation (bm_params u))
  | N_lighting f => get_lighting_field f (pa_lighting (bm_params u))
  | N_building f => get_building_field f (pa_building (bm_params u))
  | N_population f => get_population_field f (pa_population (bm_params u))
  | N_settings f => get_settings_field f (pa_settings (bm_params u))
  | N_phys f => get_phys_field f (pa_phys (bm_params u))
  | N_terrain => pa_terrain (bm_params u)
  end.
Definition get_code {T} (f : code_field) (u : building_model T) : T :=
  match f with
  | C_bem => bu_bem (pa_building (bm_params u))
  | C_dhw => ht_hotWaterEnergyType (pa_heating (bm_params u))
  | C_heating => ht_energyType (pa_heating (bm_params u))
  | C_ventilation => ve_type (pa_ventilation (bm_params u))
  end.
Definition get_extra {T} (f : extra_field) (e : extra_t T) : T :=
  match f with
  | X_ElectricAppliancePowerFixedOccupied => ex_electricAppliancePowerFixedOccupied e
  | X_ElectricAppliancePowerFixedUnoccupied => ex_electricAppliancePowerFixedUnoccupied e
  | X_GasAppliancePowerFixedOccupied => ex_gasAppliancePowerFixedOccupied e
  | X_GasAppliancePowerFixedUnoccupied => ex_gasAppliancePowerFixedUnoccupied e
  | X_LightingPowerFixedOccupied => ex_lightingPowerFixedOccupied e
  | X_LightingPowerFixedUnoccupied => ex_lightingPowerFixedUnoccupied e
  | X_InfiltrationRateUnoccupied => ex_infiltrationRateUnoccupied e
  | X_VentilationExhaustRateUnoccupied => ex_ventilationExhaustRateUnoccupied e
  | X_VentilationIntakeRateUnoccupied => ex_ventilationIntakeRateUnoccupied e
  end.
Definition set_extra {T} (f : extra_field) (x : T) (e : extra_t T) : extra_t T :=
  match f with
  | X_ElectricAppliancePowerFixedOccupied => mkExtra x (ex_electricAppliancePowerFixedUnoccupied e) (ex_gasAppliancePowerFixedOccupied e) (ex_gasAppliancePowerFixedUnoccupied e) (ex_lightingPowerFixedOccupied e) (ex_lightingPowerFixedUnoccupied e) (ex_infiltrationRateUnoccupied e) (ex_ventilationExhaustRateUnoccupied e) (ex_ventilationIntakeRateUnoccupied e)
  | X_ElectricAppliancePowerFixedUnoccupied => mkExtra (ex_electricAppliancePowerFixedOccupied e) x (ex_gasAppliancePowerFixedOccupied e) (ex_gasAppliancePowerFixedUnoccupied e) (ex_lightingPowerFixedOccupied e) (ex_lightingPowerFixedUnoccupied e) (ex_infiltrationRateUnoccupied e) (ex_ventilationExhaustRateUnoccupied e) (ex_ventilationIntakeRateUnoccupied e)
  | X_GasAppliancePowerFixedOccupied => mkExtra (ex_electricAppliancePowerFixedOccupied e) (ex_electricAppliancePowerFixedUnoccupied e) x (ex_gasAppliancePowerFixedUnoccupied e) (ex_lightingPowerFixedOccupied e) (ex_lightingPowerFixedUnoccupied e) (ex_infiltrationRateUnoccupied e) (ex_ventilationExhaustRateUnoccupied e) (ex_ventilationIntakeRateUnoccupied e)
  | X_GasAppliancePowerFixedUnoccupied => mkExtra (ex_electricAppliancePowerFixedOccupied e) (ex_electricAppliancePowerFixedUnoccupied e) (ex_gasAppliancePowerFixedOccupied e) x (ex_lightingPowerFixedOccupied e) (ex_lightingPowerFixedUnoccupied e) (ex_infiltrationRateUnoccupied e) (ex_ventilationExhaustRateUnoccupied e) (ex_ventilationIntakeRateUnoccupied e)
  | X_LightingPowerFixedOccupied => mkExtra (ex_electricAppliancePowerFixedOccupied e) (ex_electricAppliancePowerFixedUnoccupied e) (ex_gasAppliancePowerFixedOccupied e) (ex_gasAppliancePowerFixedUnoccupied e) x (ex_lightingPowerFixedUnoccupied e) (ex_infiltrationRateUnoccupied e) (ex_ventilationExhaustRateUnoccupied e) (ex_ventilationIntakeRateUnoccupied e)
  | X_LightingPowerFixedUnoccupied => mkExtra (ex_electricAppliancePowerFixedOccupied e) (ex_electricAppliancePowerFixedUnoccupied e) (ex_gasAppliancePowerFixedOccupied e) (ex_gasAppliancePowerFixedUnoccupied e) (ex_lightingPowerFixedOccupied e) x (ex_infiltrationRateUnoccupied e) (ex_ventilationExhaustRateUnoccupied e) (ex_ventilationIntakeRateUnoccupied e)
  | X_InfiltrationRateUnoccupied => mkExtra (ex_electricAppliancePowerFixedOccupied e) (ex_electricAppliancePowerFixedUnoccupied e) (ex_gasAppliancePowerFixedOccupied e) (ex_gasAppliancePowerFixedUnoccupied e) (ex_lightingPowerFixedOccupied e) (ex_lightingPowerFixedUnoccupied e) x (ex_ventilationExhaustRateUnoccupied e) (ex_ventilationIntakeRateUnoccupied e)
  | X_VentilationExhaustRateUnoccupied => mkExtra (ex_electricAppliancePowerFixedOccupied e) (ex_electricAppliancePowerFixedUnoccupied e) (ex_gasAppliancePowerFixedOccupied e) (ex_gasAppliancePowerFixedUnoccupied e) (ex_lightingPowerFixedOccupied e) (ex_lightingPowerFixedUnoccupied e) (ex_infiltrationRateUnoccupied e) x (ex_ventilationIntakeRateUnoccupied e)
  | X_VentilationIntakeRateUnoccupied => mkExtra (ex_electricAppliancePowerFixedOccupied e) (ex_electricAppliancePowerFixedUnoccupied e) (ex_gasAppliancePowerFixedOccupied e) (ex_gasAppliancePowerFixedUnoccupied e) (ex_lightingPowerFixedOccupied e) (ex_lightingPowerFixedUnoccupied e) (ex_infiltrationRateUnoccupied e) (ex_ventilationExhaustRateUnoccupied e) x
  end.
Definition get_vec {T} (f : vec_field) (p : structure_t T) : list T :=
  match f with
  | V_wallArea => st_wallArea p
  | V_wallU => st_wallU p
  | V_wallEmissivity => st_wallEmissivity p
  | V_wallAbsorption => st_wallAbsorption p
  | V_windowArea => st_windowArea p
  | V_windowU => st_windowU p
  | V_windowSHGC => st_windowSHGC p
  | V_windowSCF => st_windowSCF p
  | V_windowSDF => st_windowSDF p
  end.

(** Reading; an element outside its vector is undefined (std::vector::operator[]).  The int
    [vent_rate_flag] is returned as a double (UserModel.hpp 2171). *)
Definition read_slot {T} {N : Num T} (s : slot) (u : user_state T) : outcome T :=
  match s with
  | S_num f => Ok (get_num f (us_model u))
  | S_code f => Ok (get_code f (us_model u))
  | S_extra f => Ok (get_extra f (us_extra u))
  | S_rate_flag => Ok (zn (ve_vent_rate_flag (pa_ventilation (bm_params (us_model u)))))
  | S_elem f i => vget (get_vec f (pa_structure (bm_params (us_model u)))) i
  end.
Definition with_model {T} (u : user_state T) (m : building_model T) : user_state T :=
  mkUserState m (us_extra u) (us_schedule u).
(** Assigning a double.  The codes and the flag have no setter taking a double; for them this is
    not reached (see [setters]). *)
Definition write_slot {T} (s : slot) (x : T) (u : user_state T) : outcome (user_state T) :=
  match s with
  | S_num f => Ok (with_model u (set_num f x (us_model u)))
  | S_extra f => Ok (mkUserState (us_model u) (set_extra f x (us_extra u)) (us_schedule u))
  | S_elem f i =>
      let p := pa_structure (bm_params (us_model u)) in
      do v <- vset (get_vec f p) i x; Ok (with_model u (put_structure (us_model u) (put_vec f v p)))
  | S_code _ | S_rate_flag => UB
  end.

(** The functions returning a double, with their line in UserModel.hpp. *)
Definition getters : list (string * slot) := [
  ("bemType"%string, S_code C_bem);  (* 142 *)
  ("buildingAirLeakage"%string, S_num (N_structure F_st_infiltrationRate));  (* 160 *)
  ("buildingHeight"%string, S_num (N_structure F_st_buildingHeight));  (* 165 *)
  ("buildingOccupancyFrom"%string, S_num (N_population F_po_daysStart));  (* 170 *)
  ("buildingOccupancyTo"%string, S_num (N_population F_po_daysEnd));  (* 175 *)
  ("constantIlluminationControl"%string, S_num (N_building F_bu_constantIllumination));  (* 180 *)
  ("elecPowerAppliancesOccupied"%string, S_num (N_building F_bu_elecApplianceOcc));  (* 190 *)
  ("elecPowerAppliancesUnoccupied"%string, S_num (N_building F_bu_elecApplianceUnocc));  (* 200 *)
  ("electricAppliancePowerFixedOccupied"%string, S_extra X_ElectricAppliancePowerFixedOccupied);  (* 210 *)
  ("electricAppliancePowerFixedUnoccupied"%string, S_extra X_ElectricAppliancePowerFixedUnoccupied);  (* 220 *)
  ("externalEquipment"%string, S_num (N_building F_bu_externalEquipment));  (* 230 *)
  ("gasAppliancePowerFixedOccupied"%string, S_extra X_GasAppliancePowerFixedOccupied);  (* 240 *)
  ("gasAppliancePowerFixedUnoccupied"%string, S_extra X_GasAppliancePowerFixedUnoccupied);  (* 250 *)
  ("gasPowerAppliancesOccupied"%string, S_num (N_building F_bu_gasApplianceOcc));  (* 260 *)
  ("gasPowerAppliancesUnoccupied"%string, S_num (N_building F_bu_gasApplianceUnocc));  (* 270 *)
  ("lightingOccupancySensorSystem"%string, S_num (N_building F_bu_lightingOccupancySensor));  (* 280 *)
  ("coolingOccupiedSetpoint"%string, S_num (N_cooling F_cl_tempOcc));  (* 290 *)
  ("coolingPumpControl"%string, S_num (N_cooling F_cl_pumpControlReduction));  (* 300 *)
  ("coolingSystemCOP"%string, S_num (N_cooling F_cl_cop));  (* 310 *)
  ("coolingSystemIPLVToCOPRatio"%string, S_num (N_cooling F_cl_partialLoadValue));  (* 320 *)
  ("coolingUnoccupiedSetpoint"%string, S_num (N_cooling F_cl_tempUnocc));  (* 330 *)
  ("DC_YesNo"%string, S_num (N_cooling F_cl_DC_YesNo));  (* 340 *)
  ("dT_supp_cl"%string, S_num (N_cooling F_cl_dT_supp));  (* 350 *)
  ("E_pumps_cl"%string, S_num (N_cooling F_cl_E_pumps));  (* 360 *)
  ("eta_DC_COP_abs"%string, S_num (N_cooling F_cl_eta_DC_COP_abs));  (* 370 *)
  ("eta_DC_COP"%string, S_num (N_cooling F_cl_eta_DC_COP));  (* 380 *)
  ("eta_DC_frac_abs"%string, S_num (N_cooling F_cl_eta_DC_frac_abs));  (* 390 *)
  ("eta_DC_network"%string, S_num (N_cooling F_cl_eta_DC_network));  (* 400 *)
  ("frac_DC_free"%string, S_num (N_cooling F_cl_frac_DC_free));  (* 420 *)
  ("hvacCoolingLossFactor"%string, S_num (N_cooling F_cl_hvacLossFactor));  (* 430 *)
  ("T_cl_ctrl_flag"%string, S_num (N_cooling F_cl_T_ctrl_flag));  (* 440 *)
  ("a_H0"%string, S_num (N_heating F_ht_a_H0));  (* 450 *)
  ("DH_YesNo"%string, S_num (N_heating F_ht_DH_YesNo));  (* 460 *)
  ("dhw_tset"%string, S_num (N_heating F_ht_dhw_tset));  (* 470 *)
  ("dhw_tsupply"%string, S_num (N_heating F_ht_dhw_tsupply));  (* 480 *)
  ("dhwDemand"%string, S_num (N_heating F_ht_hotWaterDemand));  (* 490 *)
  ("dhwDistributionEfficiency"%string, S_num (N_heating F_ht_hotWaterDistributionEfficiency));  (* 500 *)
  ("dhwEfficiency"%string, S_num (N_heating F_ht_hotWaterSystemEfficiency));  (* 515 *)
  ("dhwEnergyCarrier"%string, S_code C_dhw);  (* 525 *)
  ("dT_supp_ht"%string, S_num (N_heating F_ht_dT_supp));  (* 541 *)
  ("E_pumps_ht"%string, S_num (N_heating F_ht_E_pumps));  (* 551 *)
  ("eta_DH_network"%string, S_num (N_heating F_ht_eta_DH_network));  (* 561 *)
  ("eta_DH_sys"%string, S_num (N_heating F_ht_eta_DH_sys));  (* 571 *)
  ("frac_DH_free"%string, S_num (N_heating F_ht_frac_DH_free));  (* 591 *)
  ("heatingEnergyCarrier"%string, S_code C_heating);  (* 601 *)
  ("heatingOccupiedSetpoint"%string, S_num (N_heating F_ht_tempOcc));  (* 617 *)
  ("heatingPumpControl"%string, S_num (N_heating F_ht_pumpControlReduction));  (* 627 *)
  ("heatingSystemEfficiency"%string, S_num (N_heating F_ht_efficiency));  (* 637 *)
  ("heatingUnoccupiedSetpoint"%string, S_num (N_heating F_ht_tempUnocc));  (* 647 *)
  ("hvacHeatingLossFactor"%string, S_num (N_heating F_ht_hvacLossFactor));  (* 657 *)
  ("hvacWasteFactor"%string, S_num (N_heating F_ht_hotcoldWasteFactor));  (* 667 *)
  ("T_ht_ctrl_flag"%string, S_num (N_heating F_ht_T_ctrl_flag));  (* 677 *)
  ("tau_H0"%string, S_num (N_heating F_ht_tau_H0));  (* 687 *)
  ("automaticAd"%string, S_num (N_lighting F_li_automaticAd));  (* 697 *)
  ("automaticLux"%string, S_num (N_lighting F_li_automaticLux));  (* 707 *)
  ("daylightSensorSystem"%string, S_num (N_lighting F_li_dimmingFraction));  (* 717 *)
  ("elecInternalGains"%string, S_num (N_lighting F_li_elecInternalGains));  (* 727 *)
  ("exteriorLightingPower"%string, S_num (N_lighting F_li_exteriorEnergy));  (* 737 *)
  ("lightingPowerFixedOccupied"%string, S_extra X_LightingPowerFixedOccupied);  (* 747 *)
  ("lightingPowerFixedUnoccupied"%string, S_extra X_LightingPowerFixedUnoccupied);  (* 757 *)
  ("lightingPowerIntensityOccupied"%string, S_num (N_lighting F_li_densityOcc));  (* 767 *)
  ("lightingPowerIntensityUnoccupied"%string, S_num (N_lighting F_li_densityUnocc));  (* 777 *)
  ("manualSwitchAd"%string, S_num (N_lighting F_li_manualSwitchAd));  (* 787 *)
  ("manualSwitchLux"%string, S_num (N_lighting F_li_manualSwitchLux));  (* 797 *)
  ("n_day_end"%string, S_num (N_lighting F_li_n_day_end));  (* 807 *)
  ("n_day_start"%string, S_num (N_lighting F_li_n_day_start));  (* 817 *)
  ("n_weeks"%string, S_num (N_lighting F_li_n_weeks));  (* 827 *)
  ("naturallyLightedArea"%string, S_num (N_lighting F_li_naturallyLightedArea));  (* 837 *)
  ("permLightPowerDensity"%string, S_num (N_lighting F_li_permLightPowerDensity));  (* 847 *)
  ("presenceAutoAd"%string, S_num (N_lighting F_li_presenceAutoAd));  (* 857 *)
  ("presenceAutoLux"%string, S_num (N_lighting F_li_presenceAutoLux));  (* 867 *)
  ("presenceSensorAd"%string, S_num (N_lighting F_li_presenceSensorAd));  (* 877 *)
  ("presenceSensorLux"%string, S_num (N_lighting F_li_presenceSensorLux));  (* 887 *)
  ("terrainClass"%string, S_num N_terrain);  (* 897 *)
  ("rhoCpAir"%string, S_num (N_phys F_ph_rhoCpAir));  (* 907 *)
  ("rhoCpWater"%string, S_num (N_phys F_ph_rhoCpWater));  (* 917 *)
  ("equivFullLoadOccupancyFrom"%string, S_num (N_population F_po_hoursStart));  (* 937 *)
  ("equivFullLoadOccupancyTo"%string, S_num (N_population F_po_hoursEnd));  (* 947 *)
  ("heatGainPerPerson"%string, S_num (N_population F_po_heatGainPerPerson));  (* 957 *)
  ("peopleDensityOccupied"%string, S_num (N_population F_po_densityOcc));  (* 967 *)
  ("peopleDensityUnoccupied"%string, S_num (N_population F_po_densityUnocc));  (* 977 *)
  ("hci"%string, S_num (N_settings F_ss_hci));  (* 999 *)
  ("hri"%string, S_num (N_settings F_ss_hri));  (* 1009 *)
  ("phiIntFractionToAirNode"%string, S_num (N_settings F_ss_phiIntFraction));  (* 1019 *)
  ("phiSolFractionToAirNode"%string, S_num (N_settings F_ss_phiSolFraction));  (* 1029 *)
  ("exteriorHeatCapacity"%string, S_num (N_structure F_st_wallHeatCapacity));  (* 1049 *)
  ("floorArea"%string, S_num (N_structure F_st_floorArea));  (* 1059 *)
  ("interiorHeatCapacity"%string, S_num (N_structure F_st_interiorHeatCapacity));  (* 1069 *)
  ("irradianceForMaxShadingUse"%string, S_num (N_structure F_st_irradianceForMaxShadingUse));  (* 1079 *)
  ("R_sc_ext"%string, S_num (N_structure F_st_R_sc_ext));  (* 1089 *)
  ("R_se"%string, S_num (N_structure F_st_R_se));  (* 1099 *)
  ("roofArea"%string, S_elem V_wallArea 8);  (* 1109 *)
  ("roofSolarAbsorption"%string, S_elem V_wallAbsorption 8);  (* 1119 *)
  ("roofThermalEmissivity"%string, S_elem V_wallEmissivity 8);  (* 1129 *)
  ("roofUValue"%string, S_elem V_wallU 8);  (* 1139 *)
  ("shadingFactorAtMaxUse"%string, S_num (N_structure F_st_shadingFactorAtMaxUse));  (* 1149 *)
  ("skylightArea"%string, S_elem V_windowArea 8);  (* 1159 *)
  ("skylightSCF"%string, S_elem V_windowSCF 8);  (* 1169 *)
  ("skylightSDF"%string, S_elem V_windowSDF 8);  (* 1179 *)
  ("skylightSHGC"%string, S_elem V_windowSHGC 8);  (* 1189 *)
  ("skylightUvalue"%string, S_elem V_windowU 8);  (* 1199 *)
  ("totalAreaPerFloorArea"%string, S_num (N_structure F_st_totalAreaPerFloorArea));  (* 1209 *)
  ("wallAreaE"%string, S_elem V_wallArea 2);  (* 1227 *)
  ("wallAreaN"%string, S_elem V_wallArea 4);  (* 1237 *)
  ("wallAreaNE"%string, S_elem V_wallArea 3);  (* 1247 *)
  ("wallAreaNW"%string, S_elem V_wallArea 5);  (* 1257 *)
  ("wallAreaS"%string, S_elem V_wallArea 0);  (* 1267 *)
  ("wallAreaSE"%string, S_elem V_wallArea 1);  (* 1277 *)
  ("wallAreaSW"%string, S_elem V_wallArea 7);  (* 1287 *)
  ("wallAreaW"%string, S_elem V_wallArea 6);  (* 1297 *)
  ("wallSolarAbsorptionE"%string, S_elem V_wallAbsorption 2);  (* 1315 *)
  ("wallSolarAbsorptionN"%string, S_elem V_wallAbsorption 4);  (* 1325 *)
  ("wallSolarAbsorptionNE"%string, S_elem V_wallAbsorption 3);  (* 1335 *)
  ("wallSolarAbsorptionNW"%string, S_elem V_wallAbsorption 5);  (* 1345 *)
  ("wallSolarAbsorptionS"%string, S_elem V_wallAbsorption 0);  (* 1355 *)
  ("wallSolarAbsorptionSE"%string, S_elem V_wallAbsorption 1);  (* 1365 *)
  ("wallSolarAbsorptionSW"%string, S_elem V_wallAbsorption 7);  (* 1375 *)
  ("wallSolarAbsorptionW"%string, S_elem V_wallAbsorption 6);  (* 1385 *)
  ("wallThermalEmissivityE"%string, S_elem V_wallEmissivity 2);  (* 1403 *)
  ("wallThermalEmissivityN"%string, S_elem V_wallEmissivity 4);  (* 1413 *)
  ("wallThermalEmissivityNE"%string, S_elem V_wallEmissivity 3);  (* 1423 *)
  ("wallThermalEmissivityNW"%string, S_elem V_wallEmissivity 5);  (* 1433 *)
  ("wallThermalEmissivityS"%string, S_elem V_wallEmissivity 0);  (* 1443 *)
  ("wallThermalEmissivitySE"%string, S_elem V_wallEmissivity 1);  (* 1453 *)
  ("wallThermalEmissivitySW"%string, S_elem V_wallEmissivity 7);  (* 1463 *)
  ("wallThermalEmissivityW"%string, S_elem V_wallEmissivity 6);  (* 1473 *)
  ("wallUvalueE"%string, S_elem V_wallU 2);  (* 1491 *)
  ("wallUvalueN"%string, S_elem V_wallU 4);  (* 1501 *)
  ("wallUvalueNE"%string, S_elem V_wallU 3);  (* 1511 *)
  ("wallUvalueNW"%string, S_elem V_wallU 5);  (* 1521 *)
  ("wallUvalueS"%string, S_elem V_wallU 0);  (* 1531 *)
  ("wallUvalueSE"%string, S_elem V_wallU 1);  (* 1541 *)
  ("wallUvalueSW"%string, S_elem V_wallU 7);  (* 1551 *)
  ("wallUvalueW"%string, S_elem V_wallU 6);  (* 1561 *)
  ("win_F_W"%string, S_num (N_structure F_st_win_F_W));  (* 1571 *)
  ("win_ff"%string, S_num (N_structure F_st_win_ff));  (* 1581 *)
  ("windowAreaE"%string, S_elem V_windowArea 2);  (* 1599 *)
  ("windowAreaN"%string, S_elem V_windowArea 4);  (* 1609 *)
  ("windowAreaNE"%string, S_elem V_windowArea 3);  (* 1619 *)
  ("windowAreaNW"%string, S_elem V_windowArea 5);  (* 1629 *)
  ("windowAreaS"%string, S_elem V_windowArea 0);  (* 1639 *)
  ("windowAreaSE"%string, S_elem V_windowArea 1);  (* 1649 *)
  ("windowAreaSW"%string, S_elem V_windowArea 7);  (* 1659 *)
  ("windowAreaW"%string, S_elem V_windowArea 6);  (* 1669 *)
  ("windowSCFE"%string, S_elem V_windowSCF 2);  (* 1687 *)
  ("windowSCFN"%string, S_elem V_windowSCF 4);  (* 1697 *)
  ("windowSCFNE"%string, S_elem V_windowSCF 3);  (* 1707 *)
  ("windowSCFNW"%string, S_elem V_windowSCF 5);  (* 1717 *)
  ("windowSCFS"%string, S_elem V_windowSCF 0);  (* 1727 *)
  ("windowSCFSE"%string, S_elem V_windowSCF 1);  (* 1737 *)
  ("windowSCFSW"%string, S_elem V_windowSCF 7);  (* 1747 *)
  ("windowSCFW"%string, S_elem V_windowSCF 6);  (* 1757 *)
  ("windowSDFE"%string, S_elem V_windowSDF 2);  (* 1775 *)
  ("windowSDFN"%string, S_elem V_windowSDF 4);  (* 1785 *)
  ("windowSDFNE"%string, S_elem V_windowSDF 3);  (* 1795 *)
  ("windowSDFNW"%string, S_elem V_windowSDF 5);  (* 1805 *)
  ("windowSDFS"%string, S_elem V_windowSDF 0);  (* 1815 *)
  ("windowSDFSE"%string, S_elem V_windowSDF 1);  (* 1825 *)
  ("windowSDFSW"%string, S_elem V_windowSDF 7);  (* 1835 *)
  ("windowSDFW"%string, S_elem V_windowSDF 6);  (* 1845 *)
  ("windowSHGCE"%string, S_elem V_windowSHGC 2);  (* 1863 *)
  ("windowSHGCN"%string, S_elem V_windowSHGC 4);  (* 1873 *)
  ("windowSHGCNE"%string, S_elem V_windowSHGC 3);  (* 1883 *)
  ("windowSHGCNW"%string, S_elem V_windowSHGC 5);  (* 1893 *)
  ("windowSHGCS"%string, S_elem V_windowSHGC 0);  (* 1903 *)
  ("windowSHGCSE"%string, S_elem V_windowSHGC 1);  (* 1913 *)
  ("windowSHGCSW"%string, S_elem V_windowSHGC 7);  (* 1923 *)
  ("windowSHGCW"%string, S_elem V_windowSHGC 6);  (* 1933 *)
  ("windowUvalueE"%string, S_elem V_windowU 2);  (* 1951 *)
  ("windowUvalueN"%string, S_elem V_windowU 4);  (* 1961 *)
  ("windowUvalueNE"%string, S_elem V_windowU 3);  (* 1971 *)
  ("windowUvalueNW"%string, S_elem V_windowU 5);  (* 1981 *)
  ("windowUvalueS"%string, S_elem V_windowU 0);  (* 1991 *)
  ("windowUvalueSE"%string, S_elem V_windowU 1);  (* 2001 *)
  ("windowUvalueSW"%string, S_elem V_windowU 7);  (* 2011 *)
  ("windowUvalueW"%string, S_elem V_windowU 6);  (* 2021 *)
  ("dCp"%string, S_num (N_ventilation F_ve_dCp));  (* 2031 *)
  ("exhaustAirRecirclation"%string, S_num (N_ventilation F_ve_exhaustAirRecirculated));  (* 2041 *)
  ("fanFlowControlFactor"%string, S_num (N_ventilation F_ve_fanControlFactor));  (* 2051 *)
  ("freshAirFlowRate"%string, S_num (N_ventilation F_ve_supplyRate));  (* 2061 *)
  ("H_ve"%string, S_num (N_ventilation F_ve_H_ve));  (* 2071 *)
  ("heatRecovery"%string, S_num (N_ventilation F_ve_heatRecoveryEfficiency));  (* 2081 *)
  ("hzone"%string, S_num (N_ventilation F_ve_hzone));  (* 2091 *)
  ("infiltrationRateUnoccupied"%string, S_extra X_InfiltrationRateUnoccupied);  (* 2101 *)
  ("n50"%string, S_num (N_ventilation F_ve_n50));  (* 2111 *)
  ("p_exp"%string, S_num (N_ventilation F_ve_p_exp));  (* 2121 *)
  ("specificFanPower"%string, S_num (N_ventilation F_ve_fanPower));  (* 2131 *)
  ("stack_coeff"%string, S_num (N_ventilation F_ve_stack_coeff));  (* 2141 *)
  ("stack_exp"%string, S_num (N_ventilation F_ve_stack_exp));  (* 2151 *)
  ("supplyExhaustRate"%string, S_num (N_ventilation F_ve_supplyDifference));  (* 2161 *)
  ("vent_rate_flag"%string, S_rate_flag);  (* 2171 *)
  ("ventilationExhaustRateUnoccupied"%string, S_extra X_VentilationExhaustRateUnoccupied);  (* 2181 *)
  ("ventilationIntakeRateUnoccupied"%string, S_extra X_VentilationIntakeRateUnoccupied);  (* 2191 *)
  ("ventilationType"%string, S_code C_ventilation);  (* 2201 *)
  ("ventPreheatDegC"%string, S_num (N_ventilation F_ve_preheat));  (* 2219 *)
  ("wind_coeff"%string, S_num (N_ventilation F_ve_wind_coeff));  (* 2229 *)
  ("wind_exp"%string, S_num (N_ventilation F_ve_wind_exp));  (* 2239 *)
  ("zone_frac"%string, S_num (N_ventilation F_ve_zone_frac))  (* 2249 *)
].
(** The functions taking a double. *)
Definition setters : list (string * slot) := [
  ("setConstantIlluminationControl"%string, S_num (N_building F_bu_constantIllumination));  (* 185 *)
  ("setElecPowerAppliancesOccupied"%string, S_num (N_building F_bu_elecApplianceOcc));  (* 195 *)
  ("setElecPowerAppliancesUnoccupied"%string, S_num (N_building F_bu_elecApplianceUnocc));  (* 205 *)
  ("setElectricAppliancePowerFixedOccupied"%string, S_extra X_ElectricAppliancePowerFixedOccupied);  (* 215 *)
  ("setElectricAppliancePowerFixedUnoccupied"%string, S_extra X_ElectricAppliancePowerFixedUnoccupied);  (* 225 *)
  ("setExternalEquipment"%string, S_num (N_building F_bu_externalEquipment));  (* 235 *)
  ("setGasAppliancePowerFixedOccupied"%string, S_extra X_GasAppliancePowerFixedOccupied);  (* 245 *)
  ("setGasAppliancePowerFixedUnoccupied"%string, S_extra X_GasAppliancePowerFixedUnoccupied);  (* 255 *)
  ("setGasPowerAppliancesOccupied"%string, S_num (N_building F_bu_gasApplianceOcc));  (* 265 *)
  ("setGasPowerAppliancesUnoccupied"%string, S_num (N_building F_bu_gasApplianceUnocc));  (* 275 *)
  ("setLightingOccupancySensorSystem"%string, S_num (N_building F_bu_lightingOccupancySensor));  (* 285 *)
  ("setCoolingOccupiedSetpoint"%string, S_num (N_cooling F_cl_tempOcc));  (* 295 *)
  ("setCoolingPumpControl"%string, S_num (N_cooling F_cl_pumpControlReduction));  (* 305 *)
  ("setCoolingSystemCOP"%string, S_num (N_cooling F_cl_cop));  (* 315 *)
  ("setCoolingSystemIPLVToCOPRatio"%string, S_num (N_cooling F_cl_partialLoadValue));  (* 325 *)
  ("setCoolingUnoccupiedSetpoint"%string, S_num (N_cooling F_cl_tempUnocc));  (* 335 *)
  ("setDC_YesNo"%string, S_num (N_cooling F_cl_DC_YesNo));  (* 345 *)
  ("setDT_supp_cl"%string, S_num (N_cooling F_cl_dT_supp));  (* 355 *)
  ("setE_pumps_cl"%string, S_num (N_cooling F_cl_E_pumps));  (* 365 *)
  ("setEta_DC_COP_abs"%string, S_num (N_cooling F_cl_eta_DC_COP_abs));  (* 375 *)
  ("setEta_DC_COP"%string, S_num (N_cooling F_cl_eta_DC_COP));  (* 385 *)
  ("setEta_DC_frac_abs"%string, S_num (N_cooling F_cl_eta_DC_frac_abs));  (* 395 *)
  ("setEta_DC_network"%string, S_num (N_cooling F_cl_eta_DC_network));  (* 405 *)
  ("setFrac_DC_free"%string, S_num (N_cooling F_cl_frac_DC_free));  (* 425 *)
  ("setHvacCoolingLossFactor"%string, S_num (N_cooling F_cl_hvacLossFactor));  (* 435 *)
  ("setT_cl_ctrl_flag"%string, S_num (N_cooling F_cl_T_ctrl_flag));  (* 445 *)
  ("setA_H0"%string, S_num (N_heating F_ht_a_H0));  (* 455 *)
  ("setDH_YesNo"%string, S_num (N_heating F_ht_DH_YesNo));  (* 465 *)
  ("setDhw_tset"%string, S_num (N_heating F_ht_dhw_tset));  (* 475 *)
  ("setDhw_tsupply"%string, S_num (N_heating F_ht_dhw_tsupply));  (* 485 *)
  ("setDhwDemand"%string, S_num (N_heating F_ht_hotWaterDemand));  (* 495 *)
  ("setDhwDistributionEfficiency"%string, S_num (N_heating F_ht_hotWaterDistributionEfficiency));  (* 505 *)
  ("setDhwDistributionSystem"%string, S_num (N_heating F_ht_hotWaterDistributionEfficiency));  (* 510 *)
  ("setDhwEfficiency"%string, S_num (N_heating F_ht_hotWaterSystemEfficiency));  (* 520 *)
  ("setDT_supp_ht"%string, S_num (N_heating F_ht_dT_supp));  (* 546 *)
  ("setE_pumps_ht"%string, S_num (N_heating F_ht_E_pumps));  (* 556 *)
  ("setEta_DH_network"%string, S_num (N_heating F_ht_eta_DH_network));  (* 566 *)
  ("setEta_DH_sys"%string, S_num (N_heating F_ht_eta_DH_sys));  (* 576 *)
  ("setFrac_DH_free"%string, S_num (N_heating F_ht_frac_DH_free));  (* 596 *)
  ("setHeatingOccupiedSetpoint"%string, S_num (N_heating F_ht_tempOcc));  (* 622 *)
  ("setHeatingPumpControl"%string, S_num (N_heating F_ht_pumpControlReduction));  (* 632 *)
  ("setHeatingSystemEfficiency"%string, S_num (N_heating F_ht_efficiency));  (* 642 *)
  ("setHeatingUnoccupiedSetpoint"%string, S_num (N_heating F_ht_tempUnocc));  (* 652 *)
  ("setHvacHeatingLossFactor"%string, S_num (N_heating F_ht_hvacLossFactor));  (* 662 *)
  ("setHvacWasteFactor"%string, S_num (N_heating F_ht_hotcoldWasteFactor));  (* 672 *)
  ("setT_ht_ctrl_flag"%string, S_num (N_heating F_ht_T_ctrl_flag));  (* 682 *)
  ("setTau_H0"%string, S_num (N_heating F_ht_tau_H0));  (* 692 *)
  ("setAutomaticAd"%string, S_num (N_lighting F_li_automaticAd));  (* 702 *)
  ("setAutomaticLux"%string, S_num (N_lighting F_li_automaticLux));  (* 712 *)
  ("setDaylightSensorSystem"%string, S_num (N_lighting F_li_dimmingFraction));  (* 722 *)
  ("setElecInternalGains"%string, S_num (N_lighting F_li_elecInternalGains));  (* 732 *)
  ("setExteriorLightingPower"%string, S_num (N_lighting F_li_exteriorEnergy));  (* 742 *)
  ("setLightingPowerFixedOccupied"%string, S_extra X_LightingPowerFixedOccupied);  (* 752 *)
  ("setLightingPowerFixedUnoccupied"%string, S_extra X_LightingPowerFixedUnoccupied);  (* 762 *)
  ("setLightingPowerIntensityOccupied"%string, S_num (N_lighting F_li_densityOcc));  (* 772 *)
  ("setLightingPowerIntensityUnoccupied"%string, S_num (N_lighting F_li_densityUnocc));  (* 782 *)
  ("setManualSwitchAd"%string, S_num (N_lighting F_li_manualSwitchAd));  (* 792 *)
  ("setManualSwitchLux"%string, S_num (N_lighting F_li_manualSwitchLux));  (* 802 *)
  ("setN_day_end"%string, S_num (N_lighting F_li_n_day_end));  (* 812 *)
  ("setN_day_start"%string, S_num (N_lighting F_li_n_day_start));  (* 822 *)
  ("setN_weeks"%string, S_num (N_lighting F_li_n_weeks));  (* 832 *)
  ("setNaturallyLightedArea"%string, S_num (N_lighting F_li_naturallyLightedArea));  (* 842 *)
  ("setPermLightPowerDensity"%string, S_num (N_lighting F_li_permLightPowerDensity));  (* 852 *)
  ("setPresenceAutoAd"%string, S_num (N_lighting F_li_presenceAutoAd));  (* 862 *)
  ("setPresenceAutoLux"%string, S_num (N_lighting F_li_presenceAutoLux));  (* 872 *)
  ("setPresenceSensorAd"%string, S_num (N_lighting F_li_presenceSensorAd));  (* 882 *)
  ("setPresenceSensorLux"%string, S_num (N_lighting F_li_presenceSensorLux));  (* 892 *)
  ("setTerrainClass"%string, S_num N_terrain);  (* 902 *)
  ("setRhoCpAir"%string, S_num (N_phys F_ph_rhoCpAir));  (* 912 *)
  ("setRhoCpWater"%string, S_num (N_phys F_ph_rhoCpWater));  (* 922 *)
  ("setBuildingOccupancyFrom"%string, S_num (N_population F_po_daysStart));  (* 927 *)
  ("setBuildingOccupancyTo"%string, S_num (N_population F_po_daysEnd));  (* 932 *)
  ("setEquivFullLoadOccupancyFrom"%string, S_num (N_population F_po_hoursStart));  (* 942 *)
  ("setEquivFullLoadOccupancyTo"%string, S_num (N_population F_po_hoursEnd));  (* 952 *)
  ("setHeatGainPerPerson"%string, S_num (N_population F_po_heatGainPerPerson));  (* 962 *)
  ("setPeopleDensityOccupied"%string, S_num (N_population F_po_densityOcc));  (* 972 *)
  ("setPeopleDensityUnoccupied"%string, S_num (N_population F_po_densityUnocc));  (* 982 *)
  ("setHci"%string, S_num (N_settings F_ss_hci));  (* 1004 *)
  ("setHri"%string, S_num (N_settings F_ss_hri));  (* 1014 *)
  ("setPhiIntFractionToAirNode"%string, S_num (N_settings F_ss_phiIntFraction));  (* 1024 *)
  ("setPhiSolFractionToAirNode"%string, S_num (N_settings F_ss_phiSolFraction));  (* 1034 *)
  ("setBuildingAirLeakage"%string, S_num (N_structure F_st_infiltrationRate));  (* 1039 *)
  ("setBuildingHeight"%string, S_num (N_structure F_st_buildingHeight));  (* 1044 *)
  ("setExteriorHeatCapacity"%string, S_num (N_structure F_st_wallHeatCapacity));  (* 1054 *)
  ("setFloorArea"%string, S_num (N_structure F_st_floorArea));  (* 1064 *)
  ("setInteriorHeatCapacity"%string, S_num (N_structure F_st_interiorHeatCapacity));  (* 1074 *)
  ("setIrradianceForMaxShadingUse"%string, S_num (N_structure F_st_irradianceForMaxShadingUse));  (* 1084 *)
  ("setR_sc_ext"%string, S_num (N_structure F_st_R_sc_ext));  (* 1094 *)
  ("setR_se"%string, S_num (N_structure F_st_R_se));  (* 1104 *)
  ("setRoofArea"%string, S_elem V_wallArea 8);  (* 1114 *)
  ("setRoofSolarAbsorption"%string, S_elem V_wallAbsorption 8);  (* 1124 *)
  ("setRoofThermalEmissivity"%string, S_elem V_wallEmissivity 8);  (* 1134 *)
  ("setRoofUValue"%string, S_elem V_wallU 8);  (* 1144 *)
  ("setShadingFactorAtMaxUse"%string, S_num (N_structure F_st_shadingFactorAtMaxUse));  (* 1154 *)
  ("setSkylightArea"%string, S_elem V_windowArea 8);  (* 1164 *)
  ("setSkylightSCF"%string, S_elem V_windowSCF 8);  (* 1174 *)
  ("setSkylightSDF"%string, S_elem V_windowSDF 8);  (* 1184 *)
  ("setSkylightSHGC"%string, S_elem V_windowSHGC 8);  (* 1194 *)
  ("setSkylightUvalue"%string, S_elem V_windowU 8);  (* 1204 *)
  ("setTotalAreaPerFloorArea"%string, S_num (N_structure F_st_totalAreaPerFloorArea));  (* 1214 *)
  ("setWallAreaE"%string, S_elem V_wallArea 2);  (* 1232 *)
  ("setWallAreaN"%string, S_elem V_wallArea 4);  (* 1242 *)
  ("setWallAreaNE"%string, S_elem V_wallArea 3);  (* 1252 *)
  ("setWallAreaNW"%string, S_elem V_wallArea 5);  (* 1262 *)
  ("setWallAreaS"%string, S_elem V_wallArea 0);  (* 1272 *)
  ("setWallAreaSE"%string, S_elem V_wallArea 1);  (* 1282 *)
  ("setWallAreaSW"%string, S_elem V_wallArea 7);  (* 1292 *)
  ("setWallAreaW"%string, S_elem V_wallArea 6);  (* 1302 *)
  ("setWallSolarAbsorptionE"%string, S_elem V_wallAbsorption 2);  (* 1320 *)
  ("setWallSolarAbsorptionN"%string, S_elem V_wallAbsorption 4);  (* 1330 *)
  ("setWallSolarAbsorptionNE"%string, S_elem V_wallAbsorption 3);  (* 1340 *)
  ("setWallSolarAbsorptionNW"%string, S_elem V_wallAbsorption 5);  (* 1350 *)
  ("setWallSolarAbsorptionS"%string, S_elem V_wallAbsorption 0);  (* 1360 *)
  ("setWallSolarAbsorptionSE"%string, S_elem V_wallAbsorption 1);  (* 1370 *)
  ("setWallSolarAbsorptionSW"%string, S_elem V_wallAbsorption 7);  (* 1380 *)
  ("setWallSolarAbsorptionW"%string, S_elem V_wallAbsorption 6);  (* 1390 *)
  ("setWallThermalEmissivityE"%string, S_elem V_wallEmissivity 2);  (* 1408 *)
  ("setWallThermalEmissivityN"%string, S_elem V_wallEmissivity 4);  (* 1418 *)
  ("setWallThermalEmissivityNE"%string, S_elem V_wallEmissivity 3);  (* 1428 *)
  ("setWallThermalEmissivityNW"%string, S_elem V_wallEmissivity 5);  (* 1438 *)
  ("setWallThermalEmissivityS"%string, S_elem V_wallEmissivity 0);  (* 1448 *)
  ("setWallThermalEmissivitySE"%string, S_elem V_wallEmissivity 1);  (* 1458 *)
  ("setWallThermalEmissivitySW"%string, S_elem V_wallEmissivity 7);  (* 1468 *)
  ("setWallThermalEmissivityW"%string, S_elem V_wallEmissivity 6);  (* 1478 *)
  ("setWallUvalueE"%string, S_elem V_wallU 2);  (* 1496 *)
  ("setWallUvalueN"%string, S_elem V_wallU 4);  (* 1506 *)
  ("setWallUvalueNE"%string, S_elem V_wallU 3);  (* 1516 *)
  ("setWallUvalueNW"%string, S_elem V_wallU 5);  (* 1526 *)
  ("setWallUvalueS"%string, S_elem V_wallU 0);  (* 1536 *)
  ("setWallUvalueSE"%string, S_elem V_wallU 1);  (* 1546 *)
  ("setWallUvalueSW"%string, S_elem V_wallU 7);  (* 1556 *)
  ("setWallUvalueW"%string, S_elem V_wallU 6);  (* 1566 *)
  ("setWin_F_W"%string, S_num (N_structure F_st_win_F_W));  (* 1576 *)
  ("setWin_ff"%string, S_num (N_structure F_st_win_ff));  (* 1586 *)
  ("setWindowAreaE"%string, S_elem V_windowArea 2);  (* 1604 *)
  ("setWindowAreaN"%string, S_elem V_windowArea 4);  (* 1614 *)
  ("setWindowAreaNE"%string, S_elem V_windowArea 3);  (* 1624 *)
  ("setWindowAreaNW"%string, S_elem V_windowArea 5);  (* 1634 *)
  ("setWindowAreaS"%string, S_elem V_windowArea 0);  (* 1644 *)
  ("setWindowAreaSE"%string, S_elem V_windowArea 1);  (* 1654 *)
  ("setWindowAreaSW"%string, S_elem V_windowArea 7);  (* 1664 *)
  ("setWindowAreaW"%string, S_elem V_windowArea 6);  (* 1674 *)
  ("setWindowSCFE"%string, S_elem V_windowSCF 2);  (* 1692 *)
  ("setWindowSCFN"%string, S_elem V_windowSCF 4);  (* 1702 *)
  ("setWindowSCFNE"%string, S_elem V_windowSCF 3);  (* 1712 *)
  ("setWindowSCFNW"%string, S_elem V_windowSCF 5);  (* 1722 *)
  ("setWindowSCFS"%string, S_elem V_windowSCF 0);  (* 1732 *)
  ("setWindowSCFSE"%string, S_elem V_windowSCF 1);  (* 1742 *)
  ("setWindowSCFSW"%string, S_elem V_windowSCF 7);  (* 1752 *)
  ("setWindowSCFW"%string, S_elem V_windowSCF 6);  (* 1762 *)
  ("setWindowSDFE"%string, S_elem V_windowSDF 2);  (* 1780 *)
  ("setWindowSDFN"%string, S_elem V_windowSDF 4);  (* 1790 *)
  ("setWindowSDFNE"%string, S_elem V_windowSDF 3);  (* 1800 *)
  ("setWindowSDFNW"%string, S_elem V_windowSDF 5);  (* 1810 *)
  ("setWindowSDFS"%string, S_elem V_windowSDF 0);  (* 1820 *)
  ("setWindowSDFSE"%string, S_elem V_windowSDF 1);  (* 1830 *)
  ("setWindowSDFSW"%string, S_elem V_windowSDF 7);  (* 1840 *)
  ("setWindowSDFW"%string, S_elem V_windowSDF 6);  (* 1850 *)
  ("setWindowSHGCE"%string, S_elem V_windowSHGC 2);  (* 1868 *)
  ("setWindowSHGCN"%string, S_elem V_windowSHGC 4);  (* 1878 *)
  ("setWindowSHGCNE"%string, S_elem V_windowSHGC 3);  (* 1888 *)
  ("setWindowSHGCNW"%string, S_elem V_windowSHGC 5);  (* 1898 *)
  ("setWindowSHGCS"%string, S_elem V_windowSHGC 0);  (* 1908 *)
  ("setWindowSHGCSE"%string, S_elem V_windowSHGC 1);  (* 1918 *)
  ("setWindowSHGCSW"%string, S_elem V_windowSHGC 7);  (* 1928 *)
  ("setWindowSHGCW"%string, S_elem V_windowSHGC 6);  (* 1938 *)
  ("setWindowUvalueE"%string, S_elem V_windowU 2);  (* 1956 *)
  ("setWindowUvalueN"%string, S_elem V_windowU 4);  (* 1966 *)
  ("setWindowUvalueNE"%string, S_elem V_windowU 3);  (* 1976 *)
  ("setWindowUvalueNW"%string, S_elem V_windowU 5);  (* 1986 *)
  ("setWindowUvalueS"%string, S_elem V_windowU 0);  (* 1996 *)
  ("setWindowUvalueSE"%string, S_elem V_windowU 1);  (* 2006 *)
  ("setWindowUvalueSW"%string, S_elem V_windowU 7);  (* 2016 *)
  ("setWindowUvalueW"%string, S_elem V_windowU 6);  (* 2026 *)
  ("setDCp"%string, S_num (N_ventilation F_ve_dCp));  (* 2036 *)
  ("setExhaustAirRecirclation"%string, S_num (N_ventilation F_ve_exhaustAirRecirculated));  (* 2046 *)
  ("setFanFlowControlFactor"%string, S_num (N_ventilation F_ve_fanControlFactor));  (* 2056 *)
  ("setFreshAirFlowRate"%string, S_num (N_ventilation F_ve_supplyRate));  (* 2066 *)
  ("setH_ve"%string, S_num (N_ventilation F_ve_H_ve));  (* 2076 *)
  ("setHeatRecovery"%string, S_num (N_ventilation F_ve_heatRecoveryEfficiency));  (* 2086 *)
  ("setHzone"%string, S_num (N_ventilation F_ve_hzone));  (* 2096 *)
  ("setInfiltrationRateUnoccupied"%string, S_extra X_InfiltrationRateUnoccupied);  (* 2106 *)
  ("setN50"%string, S_num (N_ventilation F_ve_n50));  (* 2116 *)
  ("setP_exp"%string, S_num (N_ventilation F_ve_p_exp));  (* 2126 *)
  ("setSpecificFanPower"%string, S_num (N_ventilation F_ve_fanPower));  (* 2136 *)
  ("setStack_coeff"%string, S_num (N_ventilation F_ve_stack_coeff));  (* 2146 *)
  ("setStack_exp"%string, S_num (N_ventilation F_ve_stack_exp));  (* 2156 *)
  ("setSupplyExhaustRate"%string, S_num (N_ventilation F_ve_supplyDifference));  (* 2166 *)
  ("setVentilationExhaustRateUnoccupied"%string, S_extra X_VentilationExhaustRateUnoccupied);  (* 2186 *)
  ("setVentilationIntakeRateUnoccupied"%string, S_extra X_VentilationIntakeRateUnoccupied);  (* 2196 *)
  ("setVentPreheatDegC"%string, S_num (N_ventilation F_ve_preheat));  (* 2224 *)
  ("setWind_coeff"%string, S_num (N_ventilation F_ve_wind_coeff));  (* 2234 *)
  ("setWind_exp"%string, S_num (N_ventilation F_ve_wind_exp));  (* 2244 *)
  ("setZone_frac"%string, S_num (N_ventilation F_ve_zone_frac))  (* 2254 *)
].
(** The functions taking a Vector; UserModel.hpp 1219, 1307, 1395, 1483, 1591, 1679, 1767, 1855, 1943. *)
Definition vector_setters : list (string * vec_field) := [
  ("setWallArea", V_wallArea); ("setWallSolarAbsorption", V_wallAbsorption);
  ("setWallThermalEmissivity", V_wallEmissivity); ("setWallU", V_wallU);
  ("setWindowArea", V_windowArea); ("setWindowSCF", V_windowSCF); ("setWindowSDF", V_windowSDF);
  ("setWindowSHGC", V_windowSHGC); ("setWindowU", V_windowU)]%string.
(** The functions taking a string; UserModel.hpp 137, 147, 530, 606, 993, 2206. *)
Definition text_setters {T} {N : Num T} : list (string * (text -> user_state T -> outcome (user_state T))) :=
  let on_model (set : text -> building_model T -> outcome (building_model T)) s u :=
    do m <- set s (us_model u); Ok (with_model u m) in [
  ("setWeatherFilePath", on_model set_WeatherFilePath);
  ("setBemType", on_model set_BemType);
  ("setDhwEnergyCarrier", on_model set_DhwEnergyCarrier);
  ("setHeatingEnergyCarrier", on_model set_HeatingEnergyCarrier);
  ("setScheduleFilePath", fun s u => Ok (mkUserState (us_model u) (us_extra u) s));
  ("setVentilationType", on_model set_VentilationType)]%string.
(** The functions taking a bool or an int; UserModel.hpp 415, 586, 2176. *)
Definition bool_setters {T} : list (string * (bool -> building_model T -> building_model T)) := [
  ("setForcedAirCooling", set_cl_forcedAir); ("setForcedAirHeating", set_ht_forcedAir)]%string.
Definition int_setters {T} : list (string * (Z -> building_model T -> building_model T)) := [
  ("setVent_rate_flag", set_ve_vent_rate_flag)]%string.

Fixpoint named {A} (n : string) (l : list (string * A)) : option A :=
  match l with
  | [] => None
  | (m, a) :: l => if String.eqb n m then Some a else named n l
  end.

(** A call of a setter.  [None]: there is no such function. *)
Inductive call (T : Type) :=
| CNumber (f : string) (x : T)
| CVector (f : string) (x : list T)
| CText (f : string) (x : text)
| CBool (f : string) (x : bool)
| CInt (f : string) (x : Z).
Arguments CNumber {T}.
Arguments CVector {T}.
Arguments CText {T}.
Arguments CBool {T}.
Arguments CInt {T}.
Definition invoke {T} {N : Num T} (c : call T) (u : user_state T) : option (outcome (user_state T)) :=
  match c with
  | CNumber f x => option_map (fun s => write_slot s x u) (named f setters)
  | CVector f x =>
      option_map (fun v => do m <- set_vec v x (us_model u); Ok (with_model u m)) (named f vector_setters)
  | CText f x => option_map (fun set => set x u) (named f text_setters)
  | CBool f x => option_map (fun set => Ok (with_model u (set x (us_model u)))) (named f bool_setters)
  | CInt f x => option_map (fun set => Ok (with_model u (set x (us_model u)))) (named f int_setters)
  end.
Definition read {T} {N : Num T} (f : string) (u : user_state T) : option (outcome T) :=
  option_map (fun s => read_slot s u) (named f getters).

(** A caller that makes the calls in turn and goes on after an exception.  A setter that throws
    has assigned nothing: the check comes first in each of them. *)
Fixpoint run_calls {T} {N : Num T} (l : list (call T)) (u : user_state T) : option (outcome (user_state T)) :=
  match l with
  | [] => Some (Ok u)
  | c :: l =>
      match invoke c u with
      | Some (Ok u1) => run_calls l u1
      | Some (Throw _) => run_calls l u
      | Some UB => Some UB
      | None => None
      end
  end.
