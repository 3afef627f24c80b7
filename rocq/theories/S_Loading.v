(** The building file parameters: the name in the .ism file and the model field it sets, as
    documented beside the accessors in UserModel.hpp ("Property name in .ism file: ...,
    Property is required / optional"). *)
From Coq Require Import Ascii String.
From Verif Require Import Base Num Text M_Properties M_Params M_UserModel S_Text.
Open Scope list_scope.

Section Tables.
Context {T : Type}.
Definition required_numbers : list (string * (building_model T -> T)) := [
  ("terrainclass"%string, fun u => pa_terrain (bm_params u));
  ("buildingheight"%string, fun u => st_buildingHeight (pa_structure (bm_params u)));
  ("floorarea"%string, fun u => st_floorArea (pa_structure (bm_params u)));
  ("occupancydayfirst"%string, fun u => po_daysStart (pa_population (bm_params u)));
  ("occupancydaylast"%string, fun u => po_daysEnd (pa_population (bm_params u)));
  ("occupancyhourfirst"%string, fun u => po_hoursStart (pa_population (bm_params u)));
  ("occupancyhourlast"%string, fun u => po_hoursEnd (pa_population (bm_params u)));
  ("peopledensityoccupied"%string, fun u => po_densityOcc (pa_population (bm_params u)));
  ("peopledensityunoccupied"%string, fun u => po_densityUnocc (pa_population (bm_params u)));
  ("lightingpowerdensityoccupied"%string, fun u => li_densityOcc (pa_lighting (bm_params u)));
  ("lightingpowerdensityunoccupied"%string, fun u => li_densityUnocc (pa_lighting (bm_params u)));
  ("electricappliancepowerdensityoccupied"%string, fun u => bu_elecApplianceOcc (pa_building (bm_params u)));
  ("electricappliancepowerdensityunoccupied"%string, fun u => bu_elecApplianceUnocc (pa_building (bm_params u)));
  ("gasappliancepowerdensityoccupied"%string, fun u => bu_gasApplianceOcc (pa_building (bm_params u)));
  ("gasappliancepowerdensityunoccupied"%string, fun u => bu_gasApplianceUnocc (pa_building (bm_params u)));
  ("exteriorlightingpower"%string, fun u => li_exteriorEnergy (pa_lighting (bm_params u)));
  ("hvacwastefactor"%string, fun u => ht_hotcoldWasteFactor (pa_heating (bm_params u)));
  ("hvacheatinglossfactor"%string, fun u => ht_hvacLossFactor (pa_heating (bm_params u)));
  ("hvaccoolinglossfactor"%string, fun u => cl_hvacLossFactor (pa_cooling (bm_params u)));
  ("daylightsensordimmingfraction"%string, fun u => li_dimmingFraction (pa_lighting (bm_params u)));
  ("lightingoccupancysensordimmingfraction"%string, fun u => bu_lightingOccupancySensor (pa_building (bm_params u)));
  ("constantilluminationcontrolmultiplier"%string, fun u => bu_constantIllumination (pa_building (bm_params u)));
  ("coolingsystemcop"%string, fun u => cl_cop (pa_cooling (bm_params u)));
  ("coolingsystemiplvtocopratio"%string, fun u => cl_partialLoadValue (pa_cooling (bm_params u)));
  ("heatingsystemefficiency"%string, fun u => ht_efficiency (pa_heating (bm_params u)));
  ("ventilationintakerateoccupied"%string, fun u => ve_supplyRate (pa_ventilation (bm_params u)));
  ("ventilationExhaustRateOccupied"%string, fun u => ve_supplyDifference (pa_ventilation (bm_params u)));
  ("heatrecovery"%string, fun u => ve_heatRecoveryEfficiency (pa_ventilation (bm_params u)));
  ("exhaustairrecirculation"%string, fun u => ve_exhaustAirRecirculated (pa_ventilation (bm_params u)));
  ("infiltrationrateoccupied"%string, fun u => st_infiltrationRate (pa_structure (bm_params u)));
  ("dhwdemand"%string, fun u => ht_hotWaterDemand (pa_heating (bm_params u)));
  ("dhwsystemefficiency"%string, fun u => ht_hotWaterSystemEfficiency (pa_heating (bm_params u)));
  ("dhwdistributionefficiency"%string, fun u => ht_hotWaterDistributionEfficiency (pa_heating (bm_params u)));
  ("interiorheatcapacity"%string, fun u => st_interiorHeatCapacity (pa_structure (bm_params u)));
  ("exteriorheatcapacity"%string, fun u => st_wallHeatCapacity (pa_structure (bm_params u)));
  ("heatingpumpcontrol"%string, fun u => ht_pumpControlReduction (pa_heating (bm_params u)));
  ("coolingpumpcontrol"%string, fun u => cl_pumpControlReduction (pa_cooling (bm_params u)));
  ("heatgainperperson"%string, fun u => po_heatGainPerPerson (pa_population (bm_params u)));
  ("specificfanpower"%string, fun u => ve_fanPower (pa_ventilation (bm_params u)));
  ("fanflowcontrolfactor"%string, fun u => ve_fanControlFactor (pa_ventilation (bm_params u)));
  ("coolingsetpointoccupied"%string, fun u => cl_tempOcc (pa_cooling (bm_params u)));
  ("coolingsetpointunoccupied"%string, fun u => cl_tempUnocc (pa_cooling (bm_params u)));
  ("heatingsetpointoccupied"%string, fun u => ht_tempOcc (pa_heating (bm_params u)));
  ("heatingsetpointunoccupied"%string, fun u => ht_tempUnocc (pa_heating (bm_params u)))].
Definition optional_numbers : list (string * (building_model T -> T)) := [
  ("externalequipment"%string, fun u => bu_externalEquipment (pa_building (bm_params u)));
  ("t_cl_ctrl_flag"%string, fun u => cl_T_ctrl_flag (pa_cooling (bm_params u)));
  ("dt_supp_cl"%string, fun u => cl_dT_supp (pa_cooling (bm_params u)));
  ("dc_yesno"%string, fun u => cl_DC_YesNo (pa_cooling (bm_params u)));
  ("eta_dc_network"%string, fun u => cl_eta_DC_network (pa_cooling (bm_params u)));
  ("eta_dc_cop"%string, fun u => cl_eta_DC_COP (pa_cooling (bm_params u)));
  ("eta_dc_frac_abs"%string, fun u => cl_eta_DC_frac_abs (pa_cooling (bm_params u)));
  ("eta_dc_cop_abs"%string, fun u => cl_eta_DC_COP_abs (pa_cooling (bm_params u)));
  ("frac_dc_free"%string, fun u => cl_frac_DC_free (pa_cooling (bm_params u)));
  ("e_pumps_cl"%string, fun u => cl_E_pumps (pa_cooling (bm_params u)));
  ("dt_supp_ht"%string, fun u => ht_dT_supp (pa_heating (bm_params u)));
  ("e_pumps_ht"%string, fun u => ht_E_pumps (pa_heating (bm_params u)));
  ("t_ht_ctrl_flag"%string, fun u => ht_T_ctrl_flag (pa_heating (bm_params u)));
  ("a_h0"%string, fun u => ht_a_H0 (pa_heating (bm_params u)));
  ("tau_h0"%string, fun u => ht_tau_H0 (pa_heating (bm_params u)));
  ("dh_yesno"%string, fun u => ht_DH_YesNo (pa_heating (bm_params u)));
  ("eta_dh_network"%string, fun u => ht_eta_DH_network (pa_heating (bm_params u)));
  ("eta_dh_sys"%string, fun u => ht_eta_DH_sys (pa_heating (bm_params u)));
  ("frac_dh_free"%string, fun u => ht_frac_DH_free (pa_heating (bm_params u)));
  ("dhw_tset"%string, fun u => ht_dhw_tset (pa_heating (bm_params u)));
  ("dhw_tsupply"%string, fun u => ht_dhw_tsupply (pa_heating (bm_params u)));
  ("n_day_start"%string, fun u => li_n_day_start (pa_lighting (bm_params u)));
  ("n_day_end"%string, fun u => li_n_day_end (pa_lighting (bm_params u)));
  ("n_weeks"%string, fun u => li_n_weeks (pa_lighting (bm_params u)));
  ("elecinternalgains"%string, fun u => li_elecInternalGains (pa_lighting (bm_params u)));
  ("permlightpowerdensity"%string, fun u => li_permLightPowerDensity (pa_lighting (bm_params u)));
  ("presencesensorad"%string, fun u => li_presenceSensorAd (pa_lighting (bm_params u)));
  ("automaticad"%string, fun u => li_automaticAd (pa_lighting (bm_params u)));
  ("presenceautoad"%string, fun u => li_presenceAutoAd (pa_lighting (bm_params u)));
  ("manualswitchad"%string, fun u => li_manualSwitchAd (pa_lighting (bm_params u)));
  ("presencesensorlux"%string, fun u => li_presenceSensorLux (pa_lighting (bm_params u)));
  ("automaticlux"%string, fun u => li_automaticLux (pa_lighting (bm_params u)));
  ("presenceautolux"%string, fun u => li_presenceAutoLux (pa_lighting (bm_params u)));
  ("manualswitchlux"%string, fun u => li_manualSwitchLux (pa_lighting (bm_params u)));
  ("naturallylightedarea"%string, fun u => li_naturallyLightedArea (pa_lighting (bm_params u)));
  ("rhocpair"%string, fun u => ph_rhoCpAir (pa_phys (bm_params u)));
  ("rhocpwater"%string, fun u => ph_rhoCpWater (pa_phys (bm_params u)));
  ("phiintfractiontoairnode"%string, fun u => ss_phiIntFraction (pa_settings (bm_params u)));
  ("phisolfractiontoairnode"%string, fun u => ss_phiSolFraction (pa_settings (bm_params u)));
  ("hci"%string, fun u => ss_hci (pa_settings (bm_params u)));
  ("hri"%string, fun u => ss_hri (pa_settings (bm_params u)));
  ("r_se"%string, fun u => st_R_se (pa_structure (bm_params u)));
  ("irradianceformaxshadinguse"%string, fun u => st_irradianceForMaxShadingUse (pa_structure (bm_params u)));
  ("shadingfactoratmaxuse"%string, fun u => st_shadingFactorAtMaxUse (pa_structure (bm_params u)));
  ("totalareaperfloorarea"%string, fun u => st_totalAreaPerFloorArea (pa_structure (bm_params u)));
  ("win_ff"%string, fun u => st_win_ff (pa_structure (bm_params u)));
  ("win_f_w"%string, fun u => st_win_F_W (pa_structure (bm_params u)));
  ("r_sc_ext"%string, fun u => st_R_sc_ext (pa_structure (bm_params u)));
  ("ventpreheatdegc"%string, fun u => ve_preheat (pa_ventilation (bm_params u)));
  ("n50"%string, fun u => ve_n50 (pa_ventilation (bm_params u)));
  ("hzone"%string, fun u => ve_hzone (pa_ventilation (bm_params u)));
  ("p_exp"%string, fun u => ve_p_exp (pa_ventilation (bm_params u)));
  ("zone_frac"%string, fun u => ve_zone_frac (pa_ventilation (bm_params u)));
  ("stack_exp"%string, fun u => ve_stack_exp (pa_ventilation (bm_params u)));
  ("stack_coeff"%string, fun u => ve_stack_coeff (pa_ventilation (bm_params u)));
  ("wind_exp"%string, fun u => ve_wind_exp (pa_ventilation (bm_params u)));
  ("wind_coeff"%string, fun u => ve_wind_coeff (pa_ventilation (bm_params u)));
  ("dcp"%string, fun u => ve_dCp (pa_ventilation (bm_params u)));
  ("h_ve"%string, fun u => ve_H_ve (pa_ventilation (bm_params u)))].
Definition optional_flags : list (string * (building_model T -> bool)) := [
  ("forcedaircooling", fun u => cl_forcedAir (pa_cooling (bm_params u)));
  ("forcedairheating", fun u => ht_forcedAir (pa_heating (bm_params u)))]%string.
Definition optional_integer : string * (building_model T -> Z) :=
  ("vent_rate_flag"%string, fun u => ve_vent_rate_flag (pa_ventilation (bm_params u))).
(** Words and their codes. *)
Definition required_words : list (string * (building_model T -> T) * list (string * Z)) := [
  ("heatingfueltype", fun u => ht_energyType (pa_heating (bm_params u)), [("electric", 1); ("gas", 2)]);
  ("ventilationtype", fun u => ve_type (pa_ventilation (bm_params u)), [("mechanical", 1); ("combined", 2); ("natural", 3)]);
  ("dhwfueltype", fun u => ht_hotWaterEnergyType (pa_heating (bm_params u)), [("electric", 1); ("gas", 2)]);
  ("bemtype", fun u => bu_bem (pa_building (bm_params u)), [("none", 1); ("simple", 2); ("advanced", 3)])]%Z%string.
Definition required_vectors : list (string * (building_model T -> list T)) := [
  ("wallArea"%string, fun u => st_wallArea (pa_structure (bm_params u)));
  ("wallU"%string, fun u => st_wallU (pa_structure (bm_params u)));
  ("wallEmissivity"%string, fun u => st_wallEmissivity (pa_structure (bm_params u)));
  ("wallAbsorption"%string, fun u => st_wallAbsorption (pa_structure (bm_params u)));
  ("windowArea"%string, fun u => st_windowArea (pa_structure (bm_params u)));
  ("windowU"%string, fun u => st_windowU (pa_structure (bm_params u)));
  ("windowSHGC"%string, fun u => st_windowSHGC (pa_structure (bm_params u)));
  ("windowSCF"%string, fun u => st_windowSCF (pa_structure (bm_params u)));
  ("windowSDF"%string, fun u => st_windowSDF (pa_structure (bm_params u)))].
End Tables.

(** Compass directions: their position in the file ("format is N, NE, E, SE, S, SW, W, NW, Roof")
    and in the stored vectors (the index used by the accessors wallAreaS(), wallAreaSE(), ... of
    UserModel.hpp 1110-2030). *)
Inductive compass := North | NorthEast | East | SouthEast | South | SouthWest | West | NorthWest | Roof.
Definition file_position (d : compass) : nat :=
  match d with North => 0 | NorthEast => 1 | East => 2 | SouthEast => 3 | South => 4 | SouthWest => 5
             | West => 6 | NorthWest => 7 | Roof => 8 end.
Definition accessor_index (d : compass) : nat :=
  match d with South => 0 | SouthEast => 1 | East => 2 | NorthEast => 3 | North => 4 | NorthWest => 5
             | West => 6 | SouthWest => 7 | Roof => 8 end.

(** What the text given for an optional parameter does: a value when it converts, the old value
    when it is absent or no number; an overflowing number is not accepted. *)
Definition optional_result {A} (convert : text -> parsed A) (given : option text) (old new : A) : Prop :=
  match given with
  | Some s => match convert s with Value x => new = x | NoConversion => new = old | RangeError => False end
  | None => new = old
  end.

(** A vector loaded from the file: nine numbers, each reachable under its compass direction. *)
Definition same_directions {A} (file stored : list A) : Prop :=
  List.length file = 9%nat /\ List.length stored = 9%nat /\
  forall d, nth_error stored (accessor_index d) = nth_error file (file_position d).

(** The building [new] is the building [old] with the parameters of a property map: [get] gives
    the texts, [vec] the number lists. *)
Definition loaded {T} {N : Num T} (rd : reader T) (get : text -> option text)
  (vec : text -> outcome (option (list T))) (old new : building_model T) : Prop :=
  (forall k p, In (k, p) required_numbers -> exists s, get (tx k) = Some s /\ rd_stod rd s = Value (p new)) /\
  (forall k p, In (k, p) optional_numbers -> optional_result (rd_stod rd) (get (tx k)) (p old) (p new)) /\
  (forall k p, In (k, p) optional_flags ->
     (get (tx k) = Some (tx "true") /\ p new = true) \/
     (get (tx k) = Some (tx "false") /\ p new = false) \/
     (get (tx k) <> Some (tx "true") /\ get (tx k) <> Some (tx "false") /\ p new = p old)) /\
  (let (k, p) := optional_integer in optional_result (rd_stoi rd) (get (tx k)) (p old) (p new)) /\
  (forall k p words, In (k, p, words) required_words ->
     exists s w code, get (tx k) = Some s /\ In (w, code) words /\ same_word s (tx w) /\ p new = zn code) /\
  (forall k p, In (k, p) required_vectors ->
     exists xs, vec (tx k) = Ok (Some xs) /\ same_directions xs (p new)) /\
  get (tx "weatherfilepath") = Some (bm_weatherFilePath new).

(** Every parameter but one is the same in two buildings. *)
Definition unchanged_except {T} (key : string) (u u' : building_model T) : Prop :=
  (forall k p, In (k, p) (required_numbers ++ optional_numbers) -> k <> key -> p u' = p u) /\
  (forall k p, In (k, p) optional_flags -> k <> key -> p u' = p u) /\
  (forall k p words, In (k, p, words) required_words -> k <> key -> p u' = p u) /\
  (forall k p, In (k, p) required_vectors -> k <> key -> p u' = p u) /\
  (let (k, p) := optional_integer in k <> key -> p u' = p u) /\
  ("weatherfilepath"%string <> key -> bm_weatherFilePath u' = bm_weatherFilePath u).
