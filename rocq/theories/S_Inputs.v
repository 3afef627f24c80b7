(** Which parameters each end use of the two engines may depend on, by their names in the
    building file. *)
From Coq Require Import String List ZArith.
From Verif Require Import M_Params M_UserModel S_Loading S_Results.
Import ListNotations.
Open Scope string_scope.

(** The parameter with this file name has the same value in both buildings. *)
Definition same_parameter {T} (key : string) (u u' : building_model T) : Prop :=
  (forall p, In (key, p) (required_numbers ++ optional_numbers) -> p u' = p u) /\
  (forall p, In (key, p) optional_flags -> p u' = p u) /\
  (forall p words, In (key, p, words) required_words -> p u' = p u) /\
  (forall p, In (key, p) required_vectors -> p u' = p u) /\
  (forall p, (key, p) = optional_integer -> p u' = p u).
Definition same_parameters {T} (keys : list string) (u u' : building_model T) : Prop :=
  forall key, In key keys -> same_parameter key u u'.

(** *** Hourly engine *)
Definition occupancy_inputs : list string :=
  ["occupancydayfirst"; "occupancydaylast"; "occupancyhourfirst"; "occupancyhourlast"].
(** Interior lighting. *)
Definition hourly_light_inputs : list string := occupancy_inputs ++
  ["floorarea"; "windowArea"; "windowSDF"; "irradianceformaxshadinguse"; "shadingfactoratmaxuse";
   "lightingpowerdensityoccupied"; "lightingpowerdensityunoccupied";
   "daylightsensordimmingfraction"; "lightingoccupancysensordimmingfraction";
   "presencesensorad"; "automaticad"; "presenceautoad"; "manualswitchad";
   "presencesensorlux"; "automaticlux"; "presenceautolux"; "manualswitchlux"; "naturallylightedarea"].
Definition hourly_plug_inputs : list string := occupancy_inputs ++
  ["electricappliancepowerdensityoccupied"; "electricappliancepowerdensityunoccupied"].
(** The heating and cooling needs. *)
Definition hourly_need_inputs : list string := hourly_light_inputs ++ hourly_plug_inputs ++
  ["buildingheight"; "totalareaperfloorarea"; "interiorheatcapacity"; "exteriorheatcapacity"; "r_se";
   "wallArea"; "wallU"; "wallAbsorption"; "windowU"; "windowSHGC"; "windowSCF";
   "elecinternalgains"; "phiintfractiontoairnode"; "phisolfractiontoairnode"; "hci"; "hri";
   "ventilationintakerateoccupied"; "heatrecovery"; "fanflowcontrolfactor"; "ventpreheatdegc";
   "n50"; "hzone"; "dcp";
   "heatingsetpointoccupied"; "heatingsetpointunoccupied"; "coolingsetpointoccupied"; "coolingsetpointunoccupied"].
Definition hourly_heating_inputs : list string := hourly_need_inputs ++
  ["heatingfueltype"; "heatingsystemefficiency"; "hvacheatinglossfactor"; "hvacwastefactor"].
Definition hourly_cooling_inputs : list string := hourly_need_inputs ++
  ["coolingsystemcop"; "hvaccoolinglossfactor"; "hvacwastefactor"].
Definition hourly_fan_inputs : list string := hourly_need_inputs ++
  ["specificfanpower"; "dt_supp_ht"; "dt_supp_cl"; "rhocpair"; "forcedairheating"; "forcedaircooling"].
Definition hourly_pump_inputs : list string := hourly_need_inputs ++
  ["heatingpumpcontrol"; "coolingpumpcontrol"; "e_pumps_ht"; "e_pumps_cl"].

(** By end use, in the order of the result table. *)
Definition hourly_inputs (k : nat) : list string :=
  nth k [hourly_heating_inputs; hourly_cooling_inputs; hourly_light_inputs;
         ["exteriorlightingpower"; "floorarea"]; hourly_fan_inputs; hourly_pump_inputs;
         hourly_plug_inputs; ["externalequipment"; "floorarea"]; []; hourly_heating_inputs; []; []; []] [].

(** Parameters of the building file that no end use of the hourly engine depends on. *)
Definition hourly_unused : list string :=
  ["terrainclass"; "peopledensityoccupied"; "peopledensityunoccupied"; "heatgainperperson";
   "gasappliancepowerdensityoccupied"; "gasappliancepowerdensityunoccupied";
   "constantilluminationcontrolmultiplier"; "coolingsystemiplvtocopratio"; "ventilationExhaustRateOccupied";
   "exhaustairrecirculation"; "infiltrationrateoccupied"; "dhwdemand"; "dhwsystemefficiency";
   "dhwdistributionefficiency"; "dhwfueltype"; "ventilationtype"; "bemtype"; "wallEmissivity"; "vent_rate_flag";
   "t_cl_ctrl_flag"; "dc_yesno"; "eta_dc_network"; "eta_dc_cop"; "eta_dc_frac_abs"; "eta_dc_cop_abs"; "frac_dc_free";
   "t_ht_ctrl_flag"; "a_h0"; "tau_h0"; "dh_yesno"; "eta_dh_network"; "eta_dh_sys"; "frac_dh_free";
   "dhw_tset"; "dhw_tsupply"; "n_day_start"; "n_day_end"; "n_weeks"; "permlightpowerdensity"; "rhocpwater";
   "win_ff"; "win_f_w"; "r_sc_ext"; "p_exp"; "zone_frac"; "stack_exp"; "stack_coeff"; "wind_exp"; "wind_coeff"; "h_ve"].

(** *** Monthly engine *)
Definition monthly_light_inputs : list string := occupancy_inputs ++
  ["floorarea"; "lightingpowerdensityoccupied"; "lightingpowerdensityunoccupied";
   "daylightsensordimmingfraction"; "lightingoccupancysensordimmingfraction"; "constantilluminationcontrolmultiplier";
   "n_day_start"; "n_day_end"; "n_weeks"].
Definition monthly_plug_inputs : list string := occupancy_inputs ++
  ["electricappliancepowerdensityoccupied"; "electricappliancepowerdensityunoccupied"].
Definition monthly_gas_plug_inputs : list string := occupancy_inputs ++
  ["gasappliancepowerdensityoccupied"; "gasappliancepowerdensityunoccupied"].
Definition monthly_water_inputs : list string :=
  ["floorarea"; "dhwdemand"; "dhw_tset"; "dhw_tsupply"; "rhocpwater"; "dhwdistributionefficiency"; "dhwsystemefficiency"; "dhwfueltype"].
(** The heating and cooling needs. *)
Definition monthly_need_inputs : list string :=
  monthly_light_inputs ++ monthly_plug_inputs ++ monthly_gas_plug_inputs ++
  ["peopledensityoccupied"; "peopledensityunoccupied"; "heatgainperperson"; "interiorheatcapacity"; "exteriorheatcapacity";
   "wallArea"; "wallU"; "wallEmissivity"; "wallAbsorption"; "windowArea"; "windowU"; "windowSHGC"; "windowSCF"; "windowSDF";
   "win_ff"; "win_f_w"; "r_sc_ext";
   "heatingsetpointoccupied"; "heatingsetpointunoccupied"; "coolingsetpointoccupied"; "coolingsetpointunoccupied";
   "bemtype"; "t_ht_ctrl_flag"; "t_cl_ctrl_flag"; "a_h0"; "tau_h0"; "h_ve";
   "terrainclass"; "buildingheight"; "infiltrationrateoccupied"; "zone_frac"; "stack_exp"; "stack_coeff";
   "wind_exp"; "wind_coeff"; "dcp"; "rhocpair";
   "ventilationtype"; "vent_rate_flag"; "ventilationintakerateoccupied"; "ventilationExhaustRateOccupied";
   "exhaustairrecirculation"; "heatrecovery"].
Definition monthly_heating_inputs : list string := monthly_need_inputs ++
  ["heatingfueltype"; "dh_yesno"; "heatingsystemefficiency"; "hvacheatinglossfactor"; "hvacwastefactor"].
Definition monthly_gas_heating_inputs : list string := monthly_heating_inputs ++
  ["eta_dh_sys"; "eta_dh_network"; "frac_dh_free"].
Definition monthly_cooling_inputs : list string := monthly_need_inputs ++
  ["dc_yesno"; "coolingsystemcop"; "coolingsystemiplvtocopratio"; "hvaccoolinglossfactor"; "hvacwastefactor";
   "eta_dc_frac_abs"; "eta_dc_cop"; "eta_dc_network"].
Definition monthly_gas_cooling_inputs : list string := monthly_need_inputs ++
  ["dc_yesno"; "hvaccoolinglossfactor"; "hvacwastefactor"; "frac_dc_free"; "eta_dc_cop_abs"].
Definition monthly_fan_inputs : list string := monthly_need_inputs ++
  ["specificfanpower"; "fanflowcontrolfactor"; "dt_supp_ht"; "dt_supp_cl"].
Definition monthly_pump_inputs : list string := monthly_need_inputs ++
  ["heatingpumpcontrol"; "coolingpumpcontrol"; "e_pumps_ht"; "e_pumps_cl"].

Definition monthly_inputs (k : nat) : list string :=
  nth k [monthly_heating_inputs; monthly_cooling_inputs; monthly_light_inputs;
         ["exteriorlightingpower"; "floorarea"]; monthly_fan_inputs; monthly_pump_inputs;
         monthly_plug_inputs; []; monthly_water_inputs; monthly_gas_heating_inputs; monthly_gas_cooling_inputs;
         monthly_gas_plug_inputs; monthly_water_inputs] [].

(** Parameters that no end use of the monthly engine depends on. *)
Definition monthly_unused : list string :=
  ["externalequipment"; "forcedairheating"; "forcedaircooling"; "elecinternalgains"; "permlightpowerdensity";
   "presencesensorad"; "automaticad"; "presenceautoad"; "manualswitchad";
   "presencesensorlux"; "automaticlux"; "presenceautolux"; "manualswitchlux"; "naturallylightedarea";
   "phiintfractiontoairnode"; "phisolfractiontoairnode"; "hci"; "hri";
   "r_se"; "irradianceformaxshadinguse"; "shadingfactoratmaxuse"; "totalareaperfloorarea";
   "ventpreheatdegc"; "n50"; "hzone"; "p_exp"].

(** All parameter names of the building file. *)
Definition all_parameters : list string :=
  map fst (@required_numbers unit) ++ map fst (@optional_numbers unit) ++ map fst (@optional_flags unit) ++
  map (fun e => fst (fst e)) (@required_words unit) ++ map fst (@required_vectors unit) ++ [fst (@optional_integer unit)].
