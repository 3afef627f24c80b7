(** The parameter objects copied from UserModel into a Simulation
    (Structure, Heating, Cooling, Ventilation, Lighting, Building, Population,
    SimulationSettings, PhysicalQuantities, Location) as plain records. *)
From Verif Require Import Base Num.

(** Structure.hpp 321-342. The nine Vectors are lists; [Structure()] makes them 9 zeros. *)
Record structure_t (T : Type) := mkStructure {
  st_floorArea : T;
  st_wallArea : list T;
  st_windowArea : list T;
  st_wallU : list T;                 (* m_wallUniform *)
  st_windowU : list T;               (* m_windowUniform *)
  st_wallEmissivity : list T;        (* m_wallThermalEmissivity *)
  st_wallAbsorption : list T;        (* m_wallSolarAbsorbtion *)
  st_windowSDF : list T;             (* m_windowShadingDevice *)
  st_windowSHGC : list T;            (* m_windowNormalIncidenceSolarEnergyTransmittance *)
  st_windowSCF : list T;             (* m_windowShadingCorrectionFactor *)
  st_interiorHeatCapacity : T;
  st_wallHeatCapacity : T;
  st_buildingHeight : T;
  st_infiltrationRate : T;
  st_R_se : T;
  st_irradianceForMaxShadingUse : T;
  st_shadingFactorAtMaxUse : T;
  st_totalAreaPerFloorArea : T;
  st_win_ff : T;
  st_win_F_W : T;
  st_R_sc_ext : T }.

(** Heating.hpp 292-318. *)
Record heating_t (T : Type) := mkHeating {
  ht_tempOcc : T;                    (* temperatureSetPointOccupied *)
  ht_tempUnocc : T;
  ht_hvacLossFactor : T;
  ht_efficiency : T;
  ht_energyType : T;
  ht_pumpControlReduction : T;
  ht_hotWaterDemand : T;
  ht_hotWaterDistributionEfficiency : T;
  ht_hotWaterSystemEfficiency : T;
  ht_hotWaterEnergyType : T;
  ht_hotcoldWasteFactor : T;
  ht_forcedAir : bool;
  ht_dT_supp : T;
  ht_E_pumps : T;
  ht_T_ctrl_flag : T;
  ht_a_H0 : T;
  ht_tau_H0 : T;
  ht_DH_YesNo : T;
  ht_eta_DH_network : T;
  ht_eta_DH_sys : T;
  ht_frac_DH_free : T;
  ht_dhw_tset : T;
  ht_dhw_tsupply : T }.

(** Cooling.hpp 212-228. *)
Record cooling_t (T : Type) := mkCooling {
  cl_tempOcc : T;
  cl_tempUnocc : T;
  cl_cop : T;
  cl_partialLoadValue : T;
  cl_hvacLossFactor : T;
  cl_pumpControlReduction : T;
  cl_forcedAir : bool;
  cl_T_ctrl_flag : T;
  cl_dT_supp : T;
  cl_DC_YesNo : T;
  cl_eta_DC_network : T;
  cl_eta_DC_COP : T;
  cl_eta_DC_frac_abs : T;
  cl_eta_DC_COP_abs : T;
  cl_frac_DC_free : T;
  cl_E_pumps : T }.

(** Ventilation.hpp 307-326. *)
Record ventilation_t (T : Type) := mkVentilation {
  ve_supplyRate : T;
  ve_supplyDifference : T;
  ve_heatRecoveryEfficiency : T;
  ve_exhaustAirRecirculated : T;
  ve_type : T;
  ve_fanPower : T;
  ve_fanControlFactor : T;
  ve_preheat : T;                    (* ventPreheatDegC *)
  ve_n50 : T;
  ve_hzone : T;
  ve_p_exp : T;
  ve_zone_frac : T;
  ve_stack_exp : T;
  ve_stack_coeff : T;
  ve_wind_exp : T;
  ve_wind_coeff : T;
  ve_dCp : T;
  ve_vent_rate_flag : Z;             (* int *)
  ve_H_ve : T }.

(** Lighting.hpp 257-277. *)
Record lighting_t (T : Type) := mkLighting {
  li_densityOcc : T;
  li_densityUnocc : T;
  li_dimmingFraction : T;
  li_exteriorEnergy : T;
  li_n_day_start : T;
  li_n_day_end : T;
  li_n_weeks : T;
  li_elecInternalGains : T;
  li_permLightPowerDensity : T;
  li_presenceSensorAd : T;
  li_automaticAd : T;
  li_presenceAutoAd : T;
  li_manualSwitchAd : T;
  li_presenceSensorLux : T;
  li_automaticLux : T;
  li_presenceAutoLux : T;
  li_manualSwitchLux : T;
  li_naturallyLightedArea : T }.

(** Building.hpp 178-187. *)
Record building_t (T : Type) := mkBuilding {
  bu_lightingOccupancySensor : T;
  bu_constantIllumination : T;
  bu_elecApplianceOcc : T;           (* electricApplianceHeatGainOccupied *)
  bu_elecApplianceUnocc : T;
  bu_gasApplianceOcc : T;
  bu_gasApplianceUnocc : T;
  bu_bem : T;                        (* buildingEnergyManagement *)
  bu_externalEquipment : T }.

(** Population.hpp 130-136. *)
Record population_t (T : Type) := mkPopulation {
  po_hoursEnd : T;
  po_hoursStart : T;
  po_daysEnd : T;
  po_daysStart : T;
  po_densityOcc : T;
  po_densityUnocc : T;
  po_heatGainPerPerson : T }.

(** SimulationSettings.hpp 87-90. *)
Record settings_t (T : Type) := mkSettings {
  ss_phiIntFraction : T;             (* phiIntFractionToAirNode *)
  ss_phiSolFraction : T;
  ss_hci : T;
  ss_hri : T }.

(** PhysicalQuantities.hpp 57-58. *)
Record phys_t (T : Type) := mkPhys {
  ph_rhoCpAir : T;
  ph_rhoCpWater : T }.

(** Simulation.hpp 24-85: what a simulation object holds, apart from the weather.
    [pa_terrain] is Location.hpp 58. *)
Record params_t (T : Type) := mkParams {
  pa_structure : structure_t T;
  pa_heating : heating_t T;
  pa_cooling : cooling_t T;
  pa_ventilation : ventilation_t T;
  pa_lighting : lighting_t T;
  pa_building : building_t T;
  pa_population : population_t T;
  pa_settings : settings_t T;
  pa_phys : phys_t T;
  pa_terrain : T }.

Arguments mkStructure {T}.
Arguments st_floorArea {T}.
Arguments st_wallArea {T}.
Arguments st_windowArea {T}.
Arguments st_wallU {T}.
Arguments st_windowU {T}.
Arguments st_wallEmissivity {T}.
Arguments st_wallAbsorption {T}.
Arguments st_windowSDF {T}.
Arguments st_windowSHGC {T}.
Arguments st_windowSCF {T}.
Arguments st_interiorHeatCapacity {T}.
Arguments st_wallHeatCapacity {T}.
Arguments st_buildingHeight {T}.
Arguments st_infiltrationRate {T}.
Arguments st_R_se {T}.
Arguments st_irradianceForMaxShadingUse {T}.
Arguments st_shadingFactorAtMaxUse {T}.
Arguments st_totalAreaPerFloorArea {T}.
Arguments st_win_ff {T}.
Arguments st_win_F_W {T}.
Arguments st_R_sc_ext {T}.
Arguments mkHeating {T}.
Arguments ht_tempOcc {T}.
Arguments ht_tempUnocc {T}.
Arguments ht_hvacLossFactor {T}.
Arguments ht_efficiency {T}.
Arguments ht_energyType {T}.
Arguments ht_pumpControlReduction {T}.
Arguments ht_hotWaterDemand {T}.
Arguments ht_hotWaterDistributionEfficiency {T}.
Arguments ht_hotWaterSystemEfficiency {T}.
Arguments ht_hotWaterEnergyType {T}.
Arguments ht_hotcoldWasteFactor {T}.
Arguments ht_forcedAir {T}.
Arguments ht_dT_supp {T}.
Arguments ht_E_pumps {T}.
Arguments ht_T_ctrl_flag {T}.
Arguments ht_a_H0 {T}.
Arguments ht_tau_H0 {T}.
Arguments ht_DH_YesNo {T}.
Arguments ht_eta_DH_network {T}.
Arguments ht_eta_DH_sys {T}.
Arguments ht_frac_DH_free {T}.
Arguments ht_dhw_tset {T}.
Arguments ht_dhw_tsupply {T}.
Arguments mkCooling {T}.
Arguments cl_tempOcc {T}.
Arguments cl_tempUnocc {T}.
Arguments cl_cop {T}.
Arguments cl_partialLoadValue {T}.
Arguments cl_hvacLossFactor {T}.
Arguments cl_pumpControlReduction {T}.
Arguments cl_forcedAir {T}.
Arguments cl_T_ctrl_flag {T}.
Arguments cl_dT_supp {T}.
Arguments cl_DC_YesNo {T}.
Arguments cl_eta_DC_network {T}.
Arguments cl_eta_DC_COP {T}.
Arguments cl_eta_DC_frac_abs {T}.
Arguments cl_eta_DC_COP_abs {T}.
Arguments cl_frac_DC_free {T}.
Arguments cl_E_pumps {T}.
Arguments mkVentilation {T}.
Arguments ve_supplyRate {T}.
Arguments ve_supplyDifference {T}.
Arguments ve_heatRecoveryEfficiency {T}.
Arguments ve_exhaustAirRecirculated {T}.
Arguments ve_type {T}.
Arguments ve_fanPower {T}.
Arguments ve_fanControlFactor {T}.
Arguments ve_preheat {T}.
Arguments ve_n50 {T}.
Arguments ve_hzone {T}.
Arguments ve_p_exp {T}.
Arguments ve_zone_frac {T}.
Arguments ve_stack_exp {T}.
Arguments ve_stack_coeff {T}.
Arguments ve_wind_exp {T}.
Arguments ve_wind_coeff {T}.
Arguments ve_dCp {T}.
Arguments ve_vent_rate_flag {T}.
Arguments ve_H_ve {T}.
Arguments mkLighting {T}.
Arguments li_densityOcc {T}.
Arguments li_densityUnocc {T}.
Arguments li_dimmingFraction {T}.
Arguments li_exteriorEnergy {T}.
Arguments li_n_day_start {T}.
Arguments li_n_day_end {T}.
Arguments li_n_weeks {T}.
Arguments li_elecInternalGains {T}.
Arguments li_permLightPowerDensity {T}.
Arguments li_presenceSensorAd {T}.
Arguments li_automaticAd {T}.
Arguments li_presenceAutoAd {T}.
Arguments li_manualSwitchAd {T}.
Arguments li_presenceSensorLux {T}.
Arguments li_automaticLux {T}.
Arguments li_presenceAutoLux {T}.
Arguments li_manualSwitchLux {T}.
Arguments li_naturallyLightedArea {T}.
Arguments mkBuilding {T}.
Arguments bu_lightingOccupancySensor {T}.
Arguments bu_constantIllumination {T}.
Arguments bu_elecApplianceOcc {T}.
Arguments bu_elecApplianceUnocc {T}.
Arguments bu_gasApplianceOcc {T}.
Arguments bu_gasApplianceUnocc {T}.
Arguments bu_bem {T}.
Arguments bu_externalEquipment {T}.
Arguments mkPopulation {T}.
Arguments po_hoursEnd {T}.
Arguments po_hoursStart {T}.
Arguments po_daysEnd {T}.
Arguments po_daysStart {T}.
Arguments po_densityOcc {T}.
Arguments po_densityUnocc {T}.
Arguments po_heatGainPerPerson {T}.
Arguments mkSettings {T}.
Arguments ss_phiIntFraction {T}.
Arguments ss_phiSolFraction {T}.
Arguments ss_hci {T}.
Arguments ss_hri {T}.
Arguments mkPhys {T}.
Arguments ph_rhoCpAir {T}.
Arguments ph_rhoCpWater {T}.
Arguments mkParams {T}.
Arguments pa_structure {T}.
Arguments pa_heating {T}.
Arguments pa_cooling {T}.
Arguments pa_ventilation {T}.
Arguments pa_lighting {T}.
Arguments pa_building {T}.
Arguments pa_population {T}.
Arguments pa_settings {T}.
Arguments pa_phys {T}.
Arguments pa_terrain {T}.
