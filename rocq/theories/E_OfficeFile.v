(** The text of IsoModel/test_data/SmallOffice_v2.ism, and the building in the state before
    loading: the defaults of the parameter headers, with the fields they leave unset at 0. *)
From Coq Require Import Ascii String ZArith.
From Verif Require Import Base Num Text M_Params M_UserModel E_SmallOffice.

Definition officeText : text := tx "#./example.ism generated by idf2ismv03.rb on example.idf on Mon Oct 21 13:39:40 2013
# Building Name = BENCHMARK SMALL OFFICE NEW V1.0_3.0
weatherFilePath = ORD.epw
# Terrain class urban/city = 0.8, suburban/some shielding = 0.9, country/open = 1.0
terrainClass = 0.8
# building height is in m,  floor area is in m^2, people density is m2/person
buildingHeight = 6.33
floorArea = 511.16
peopleDensityOccupied = 25.4683514030612
peopleDensityUnoccupied = 150.51041254091
occupancyDayFirst = 1
occupancyDayLast = 5
occupancyHourFirst = 8
occupancyHourLast = 17
# LPD, EPD, GPD all in W/m2, ext light power in W, and heat gain is W/person
lightingPowerDensityOccupied = 6.33869983780207
lightingPowerDensityUnoccupied = 2.58639212251571
electricAppliancePowerDensityOccupied = 4.83103336902162
electricAppliancePowerDensityUnoccupied = 2.24818845302062
gasAppliancePowerDensityOccupied = 0.0
gasAppliancePowerDensityUnoccupied = 0.0
exteriorLightingPower = 303.660166666667
heatGainPerPerson=120.0
# Temp set points in degrees C
heatingSetpointOccupied = 24
heatingSetpointUnoccupied = 24
coolingSetpointOccupied = 28
coolingSetpointUnoccupied = 28
# HVAC waste, heating and cooling loss factors set by HVAC type from EN 15243
hvacWasteFactor = 0.0
hvacHeatingLossFactor = 0.25
hvacCoolingLossFactor = 0.0
# daylight sensors, occupancy sensors, illum control are set to 1 if there is no control.   See iso 15193 Annex F/G for values
daylightSensorDimmingFraction = 1
lightingOccupancySensorDimmingFraction = 1
constantIlluminationControlMultiplier = 1
# COP is W/W, coolingSystemIPLV is the ratio of IPLV/COP
coolingSystemCOP = 3.21030372594672
coolingSystemIPLVToCopRatio =1.04773541524309
#heatingFuelType is 'electric' or 'gas'
heatingFuelType = gas
heatingSystemEfficiency = 2.13505737091766
# vent type: 'mechanical', 'natural', or 'combined'
ventilationType = mechanical
# ventilation flow rates in L/s, default is 10 L/s/person ~ 20 cfm/person
ventilationIntakeRateOccupied = 158.1941
ventilationExhaustRateOccupied = 158.1941
# heatRecover = efficiency of heat recovery (0 for none), exhaustAirRecir = fraction of supply air recirculated
heatRecovery = 0.0
exhaustAirRecirculation = 0.0
# DHW demand in m3/yr use 10 m3/yr/person as a default for offices
dhwDemand =  0.0
# dhwDistribution efficiency all taps w/i 3m = 1, taps more than 3m = 0.8, circulation or unknown = 0.6, see NEN 2916 12.6, 
dhwSystemEfficiency = 0.8
dhwDistributionEfficiency = 0.6
# dhwFuelType: 'electric' or 'gas'
dhwFuelType = gas
# Surface Heat capacity in J/K/m2
interiorHeatCapacity = 98010.0000000022
exteriorHeatCapacity = 29707.0229928189
# BEM none, simple, or advanced
bemType = none
# specific fan power in W/(L/s),  flow control factor is energy reduction from fan control measures
specificFanPower = 0.892769460142308 
# fan flow control  1= no control, 0.75 = inlet blade adjuct, 0.65= variable speed  see NEN 2916 7.3.3.4  
fanFlowcontrolFactor = 1.0
# infiltration in m3/m2/hr based on surface area
infiltrationRateOccupied = 7.08899540065705
# pump control 0= no pump, 0.5 = auto pump controls for more 50% of pumps, 1.0 = all other cases.   See NEN 2914 9.4.3
heatingPumpControl=1.0
coolingPumpControl=1.0
# Areas in m2, U values in W/m2/K
# SCF = solar control factor (external control), SDF = shading device factor = internal shading
# format is N, NE, E, SE, S, SW, W, NW, Roof or Skylight
wallU = 0.363,0.0,0.363,0.0,0.363,0.0,0.363,0.0,2.494
wallEmissivity = 0.9,0.0,0.9,0.0,0.9,0.0,0.9,0.0,0.9
wallAbsorption = 0.7,0.0,0.7,0.0,0.7,0.0,0.7,0.0,0.7
windowU = 2.653,0.0,2.653,0.0,2.653,0.0,2.653,0.0,0.0
windowSHGC = 0.426,0.0,0.426,0.0,0.426,0.0,0.426,0.0,0.0
windowSCF = 1.0,0.0,1.0,0.0,1.0,0.0,1.0,0.0,1.0
windowSDF = 1.0,0.0,1.0,0.0,1.0,0.0,1.0,0.0,1.0
wallArea = 84.45,0.0,56.3,0.0,84.45,0.0,56.3,0.0,598.76
windowArea = 16.74,0.0,11.16,0.0,20.65,0.0,11.16,0.0,0.0

# new as unused parameters
ventilationIntakeRateUnoccupied = 0
ventilationExhaustRateUnoccupied = 0
infiltrationRateUnoccupied = 0
lightingPowerFixedOccupied = 0
lightingPowerFixedUnoccupied = 0
electricAppliancePowerFixedOccupied = 0
electricAppliancePowerFixedUnoccupied = 0
gasAppliancePowerFixedOccupied = 0
gasAppliancePowerFixedUnoccupied = 0
schedulefilepath = ./schedule.txt
".

Definition freshOffice {T} {N : Num T} : building_model T :=
  let o := smallOffice in
  let s := pa_structure o in let h := pa_heating o in let c := pa_cooling o in
  let v := pa_ventilation o in let l := pa_lighting o in let b := pa_building o in
  let z := zn 0 in
  mkBuildingModel (mkParams
    (mkStructure z [] [] [] [] [] [] [] [] [] z z z z (st_R_se s) (st_irradianceForMaxShadingUse s) (st_shadingFactorAtMaxUse s)
       (st_totalAreaPerFloorArea s) (st_win_ff s) (st_win_F_W s) (st_R_sc_ext s))
    (mkHeating z z z z z z z z z z z (ht_forcedAir h) (ht_dT_supp h) (ht_E_pumps h) (ht_T_ctrl_flag h) (ht_a_H0 h) (ht_tau_H0 h)
       (ht_DH_YesNo h) (ht_eta_DH_network h) (ht_eta_DH_sys h) (ht_frac_DH_free h) (ht_dhw_tset h) (ht_dhw_tsupply h))
    (mkCooling z z z z z z (cl_forcedAir c) (cl_T_ctrl_flag c) (cl_dT_supp c) (cl_DC_YesNo c) (cl_eta_DC_network c) (cl_eta_DC_COP c)
       (cl_eta_DC_frac_abs c) (cl_eta_DC_COP_abs c) (cl_frac_DC_free c) (cl_E_pumps c))
    (mkVentilation z z z z z z z (ve_preheat v) (ve_n50 v) (ve_hzone v) (ve_p_exp v) (ve_zone_frac v) (ve_stack_exp v)
       (ve_stack_coeff v) (ve_wind_exp v) (ve_wind_coeff v) (ve_dCp v) (ve_vent_rate_flag v) (ve_H_ve v))
    (mkLighting z z z z (li_n_day_start l) (li_n_day_end l) (li_n_weeks l) (li_elecInternalGains l) (li_permLightPowerDensity l)
       (li_presenceSensorAd l) (li_automaticAd l) (li_presenceAutoAd l) (li_manualSwitchAd l) (li_presenceSensorLux l)
       (li_automaticLux l) (li_presenceAutoLux l) (li_manualSwitchLux l) (li_naturallyLightedArea l))
    (mkBuilding z z z z z z z (bu_externalEquipment b))
    (mkPopulation z z z z z z z) (pa_settings o) (pa_phys o) z) [].
