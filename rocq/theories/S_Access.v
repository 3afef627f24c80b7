(** What the accessors of UserModel promise, in terms of their names. *)
From Coq Require Import Ascii String.
From Verif Require Import Base Num Text M_Properties M_Params M_UserModel M_Access S_Text S_Loading.
Open Scope list_scope.

(** The setter of [wallAreaN] is [setWallAreaN]; that of [E_pumps_cl] is [setE_pumps_cl]. *)
Definition capital (c : ascii) : ascii :=
  let n := N_of_ascii c in if andb (N.leb 97 n) (N.leb n 122) then ascii_of_N (n - 32) else c.
Definition setter_name (getter : string) : string :=
  match getter with
  | EmptyString => "set"
  | String c s => "set" ++ String (capital c) s
  end%string.

(** Setters that take all nine values of a kind, with the getters of the single values. *)
Definition direction_suffix (d : compass) : string :=
  match d with
  | North => "N" | NorthEast => "NE" | East => "E" | SouthEast => "SE" | South => "S"
  | SouthWest => "SW" | West => "W" | NorthWest => "NW" | Roof => "" end%string.
Record vector_names := mkVectorNames { vn_setter : string; vn_getter : string; vn_roof : string }.
Definition vectors : list vector_names := [
  mkVectorNames "setWallArea" "wallArea" "roofArea";
  mkVectorNames "setWallU" "wallUvalue" "roofUValue";
  mkVectorNames "setWallThermalEmissivity" "wallThermalEmissivity" "roofThermalEmissivity";
  mkVectorNames "setWallSolarAbsorption" "wallSolarAbsorption" "roofSolarAbsorption";
  mkVectorNames "setWindowArea" "windowArea" "skylightArea";
  mkVectorNames "setWindowU" "windowUvalue" "skylightUvalue";
  mkVectorNames "setWindowSHGC" "windowSHGC" "skylightSHGC";
  mkVectorNames "setWindowSCF" "windowSCF" "skylightSCF";
  mkVectorNames "setWindowSDF" "windowSDF" "skylightSDF"]%string.
Definition getter_of (v : vector_names) (d : compass) : string :=
  match d with Roof => vn_roof v | _ => vn_getter v ++ direction_suffix d end%string.

(** Setters that take a word, with their getter and the code of each word. *)
Definition word_setters : list (string * string * list (string * Z)) := [
  ("setBemType", "bemType", [("none", 1); ("simple", 2); ("advanced", 3)]);
  ("setDhwEnergyCarrier", "dhwEnergyCarrier", [("electric", 1); ("gas", 2)]);
  ("setHeatingEnergyCarrier", "heatingEnergyCarrier", [("electric", 1); ("gas", 2)]);
  ("setVentilationType", "ventilationType", [("mechanical", 1); ("combined", 2); ("natural", 3)])]%string%Z.

(** A call gives the parameter behind a getter the value [x].  [setDhwDistributionSystem] is a
    second name of [setDhwDistributionEfficiency]. *)
Inductive gives {T} {N : Num T} (g : string) : call T -> T -> Prop :=
| gives_number x : gives g (CNumber (setter_name g) x) x
| gives_alias x : g = "dhwDistributionEfficiency"%string -> gives g (CNumber "setDhwDistributionSystem" x) x
| gives_vector v d xs x : In v vectors -> getter_of v d = g -> List.length xs = 9%nat ->
    nth_error xs (accessor_index d) = Some x -> gives g (CVector (vn_setter v) xs) x
| gives_word f words s w code : In (f, g, words) word_setters -> In (w, code) words ->
    same_word s (tx w) -> gives g (CText f s) (zn code)
| gives_integer z : g = "vent_rate_flag"%string -> gives g (CInt "setVent_rate_flag" z) (zn z).

(** The value of a parameter after some calls: that of the last call that gives it one, or the
    one it had. *)
Inductive value_after {C V} (gives : C -> V -> Prop) (before : V) : list C -> V -> Prop :=
| after_given past c rest x : gives c x -> (forall c' y, In c' rest -> ~ gives c' y) ->
    value_after gives before (past ++ c :: rest) x
| after_none calls : (forall c y, In c calls -> ~ gives c y) -> value_after gives before calls before.

(** The functions of the interface. *)
Definition known {T} {N : Num T} (c : call T) : Prop :=
  match c with
  | CNumber f _ => In f (map fst setters)
  | CVector f _ => In f (map fst vector_setters)
  | CText f _ => In f (map fst (@text_setters T N))
  | CBool f _ => In f (map fst (@bool_setters T))
  | CInt f _ => In f (map fst (@int_setters T))
  end.

(** Structure.cpp 6-9 makes all vectors nine long. *)
Definition nine_each {T} (u : user_state T) : Prop :=
  forall k p, In (k, p) (@required_vectors T) -> List.length (p (us_model u)) = 9%nat.

(** The names the header documents: "Property name in .ism file" beside each setter that takes a
    double, with the line in UserModel.hpp. *)
Definition documented_numbers : list (string * string) := [
  ("constantIlluminationControl"%string, "constantilluminationcontrolmultiplier"%string);  (* 185 *)
  ("elecPowerAppliancesOccupied"%string, "electricappliancepowerdensityoccupied"%string);  (* 195 *)
  ("elecPowerAppliancesUnoccupied"%string, "electricappliancepowerdensityunoccupied"%string);  (* 205 *)
  ("externalEquipment"%string, "externalequipment"%string);  (* 235 *)
  ("gasPowerAppliancesOccupied"%string, "gasappliancepowerdensityoccupied"%string);  (* 265 *)
  ("gasPowerAppliancesUnoccupied"%string, "gasappliancepowerdensityunoccupied"%string);  (* 275 *)
  ("lightingOccupancySensorSystem"%string, "lightingoccupancysensordimmingfraction"%string);  (* 285 *)
  ("coolingOccupiedSetpoint"%string, "coolingsetpointoccupied"%string);  (* 295 *)
  ("coolingPumpControl"%string, "coolingpumpcontrol"%string);  (* 305 *)
  ("coolingSystemCOP"%string, "coolingsystemcop"%string);  (* 315 *)
  ("coolingSystemIPLVToCOPRatio"%string, "coolingsystemiplvtocopratio"%string);  (* 325 *)
  ("coolingUnoccupiedSetpoint"%string, "coolingsetpointunoccupied"%string);  (* 335 *)
  ("DC_YesNo"%string, "dc_yesno"%string);  (* 345 *)
  ("dT_supp_cl"%string, "dt_supp_cl"%string);  (* 355 *)
  ("E_pumps_cl"%string, "e_pumps_cl"%string);  (* 365 *)
  ("eta_DC_COP_abs"%string, "eta_dc_cop_abs"%string);  (* 375 *)
  ("eta_DC_COP"%string, "eta_dc_cop"%string);  (* 385 *)
  ("eta_DC_frac_abs"%string, "eta_dc_frac_abs"%string);  (* 395 *)
  ("eta_DC_network"%string, "eta_dc_network"%string);  (* 405 *)
  ("frac_DC_free"%string, "frac_dc_free"%string);  (* 425 *)
  ("hvacCoolingLossFactor"%string, "hvaccoolinglossfactor"%string);  (* 435 *)
  ("T_cl_ctrl_flag"%string, "t_cl_ctrl_flag"%string);  (* 445 *)
  ("a_H0"%string, "a_h0"%string);  (* 455 *)
  ("DH_YesNo"%string, "dh_yesno"%string);  (* 465 *)
  ("dhw_tset"%string, "dhw_tset"%string);  (* 475 *)
  ("dhw_tsupply"%string, "dhw_tsupply"%string);  (* 485 *)
  ("dhwDemand"%string, "dhwdemand"%string);  (* 495 *)
  ("dhwDistributionEfficiency"%string, "dhwdistributionefficiency"%string);  (* 505 *)
  ("dhwEfficiency"%string, "dhwsystemefficiency"%string);  (* 520 *)
  ("dT_supp_ht"%string, "dt_supp_ht"%string);  (* 546 *)
  ("E_pumps_ht"%string, "e_pumps_ht"%string);  (* 556 *)
  ("eta_DH_network"%string, "eta_dh_network"%string);  (* 566 *)
  ("eta_DH_sys"%string, "eta_dh_sys"%string);  (* 576 *)
  ("frac_DH_free"%string, "frac_dh_free"%string);  (* 596 *)
  ("heatingOccupiedSetpoint"%string, "heatingsetpointoccupied"%string);  (* 622 *)
  ("heatingPumpControl"%string, "heatingpumpcontrol"%string);  (* 632 *)
  ("heatingSystemEfficiency"%string, "heatingsystemefficiency"%string);  (* 642 *)
  ("heatingUnoccupiedSetpoint"%string, "heatingsetpointunoccupied"%string);  (* 652 *)
  ("hvacHeatingLossFactor"%string, "hvacheatinglossfactor"%string);  (* 662 *)
  ("hvacWasteFactor"%string, "hvacwastefactor"%string);  (* 672 *)
  ("T_ht_ctrl_flag"%string, "t_ht_ctrl_flag"%string);  (* 682 *)
  ("tau_H0"%string, "tau_h0"%string);  (* 692 *)
  ("automaticAd"%string, "automaticad"%string);  (* 702 *)
  ("automaticLux"%string, "automaticlux"%string);  (* 712 *)
  ("daylightSensorSystem"%string, "daylightsensordimmingfraction"%string);  (* 722 *)
  ("elecInternalGains"%string, "elecinternalgains"%string);  (* 732 *)
  ("exteriorLightingPower"%string, "exteriorlightingpower"%string);  (* 742 *)
  ("lightingPowerIntensityOccupied"%string, "lightingpowerdensityoccupied"%string);  (* 772 *)
  ("lightingPowerIntensityUnoccupied"%string, "lightingpowerdensityunoccupied"%string);  (* 782 *)
  ("manualSwitchAd"%string, "manualswitchad"%string);  (* 792 *)
  ("manualSwitchLux"%string, "manualswitchlux"%string);  (* 802 *)
  ("n_day_end"%string, "n_day_end"%string);  (* 812 *)
  ("n_day_start"%string, "n_day_start"%string);  (* 822 *)
  ("n_weeks"%string, "n_weeks"%string);  (* 832 *)
  ("naturallyLightedArea"%string, "naturallylightedarea"%string);  (* 842 *)
  ("permLightPowerDensity"%string, "permlightpowerdensity"%string);  (* 852 *)
  ("presenceAutoAd"%string, "presenceautoad"%string);  (* 862 *)
  ("presenceAutoLux"%string, "presenceautolux"%string);  (* 872 *)
  ("presenceSensorAd"%string, "presencesensorad"%string);  (* 882 *)
  ("presenceSensorLux"%string, "presencesensorlux"%string);  (* 892 *)
  ("terrainClass"%string, "terrainclass"%string);  (* 902 *)
  ("rhoCpAir"%string, "rhocpair"%string);  (* 912 *)
  ("rhoCpWater"%string, "rhocpwater"%string);  (* 922 *)
  ("buildingOccupancyFrom"%string, "occupancydayfirst"%string);  (* 927 *)
  ("buildingOccupancyTo"%string, "occupancydaylast"%string);  (* 932 *)
  ("equivFullLoadOccupancyFrom"%string, "occupancyhourfirst"%string);  (* 942 *)
  ("equivFullLoadOccupancyTo"%string, "occupancyhourlast"%string);  (* 952 *)
  ("heatGainPerPerson"%string, "heatgainperperson"%string);  (* 962 *)
  ("peopleDensityOccupied"%string, "peopledensityoccupied"%string);  (* 972 *)
  ("peopleDensityUnoccupied"%string, "peopledensityunoccupied"%string);  (* 982 *)
  ("hci"%string, "hci"%string);  (* 1004 *)
  ("hri"%string, "hri"%string);  (* 1014 *)
  ("phiIntFractionToAirNode"%string, "phiintfractiontoairnode"%string);  (* 1024 *)
  ("phiSolFractionToAirNode"%string, "phisolfractiontoairnode"%string);  (* 1034 *)
  ("buildingAirLeakage"%string, "infiltrationrateoccupied"%string);  (* 1039 *)
  ("buildingHeight"%string, "buildingheight"%string);  (* 1044 *)
  ("exteriorHeatCapacity"%string, "exteriorheatcapacity"%string);  (* 1054 *)
  ("floorArea"%string, "floorarea"%string);  (* 1064 *)
  ("interiorHeatCapacity"%string, "interiorheatcapacity"%string);  (* 1074 *)
  ("irradianceForMaxShadingUse"%string, "irradianceformaxshadinguse"%string);  (* 1084 *)
  ("R_sc_ext"%string, "r_sc_ext"%string);  (* 1094 *)
  ("R_se"%string, "r_se"%string);  (* 1104 *)
  ("shadingFactorAtMaxUse"%string, "shadingfactoratmaxuse"%string);  (* 1154 *)
  ("totalAreaPerFloorArea"%string, "totalareaperfloorarea"%string);  (* 1214 *)
  ("win_F_W"%string, "win_f_w"%string);  (* 1576 *)
  ("win_ff"%string, "win_ff"%string);  (* 1586 *)
  ("dCp"%string, "dcp"%string);  (* 2036 *)
  ("exhaustAirRecirclation"%string, "exhaustairrecirculation"%string);  (* 2046 *)
  ("fanFlowControlFactor"%string, "fanflowcontrolfactor"%string);  (* 2056 *)
  ("freshAirFlowRate"%string, "ventilationintakerateoccupied"%string);  (* 2066 *)
  ("H_ve"%string, "h_ve"%string);  (* 2076 *)
  ("heatRecovery"%string, "heatrecovery"%string);  (* 2086 *)
  ("hzone"%string, "hzone"%string);  (* 2096 *)
  ("n50"%string, "n50"%string);  (* 2116 *)
  ("p_exp"%string, "p_exp"%string);  (* 2126 *)
  ("specificFanPower"%string, "specificfanpower"%string);  (* 2136 *)
  ("stack_coeff"%string, "stack_coeff"%string);  (* 2146 *)
  ("stack_exp"%string, "stack_exp"%string);  (* 2156 *)
  ("supplyExhaustRate"%string, "ventilationExhaustRateOccupied"%string);  (* 2166 *)
  ("ventPreheatDegC"%string, "ventpreheatdegc"%string);  (* 2224 *)
  ("wind_coeff"%string, "wind_coeff"%string);  (* 2234 *)
  ("wind_exp"%string, "wind_exp"%string);  (* 2244 *)
  ("zone_frac"%string, "zone_frac"%string)  (* 2254 *)
].
(** The same for the setters that take a Vector (1218-1943) ... *)
Definition documented_vectors : list (string * string) := [
  ("setWallArea", "wallArea"); ("setWallSolarAbsorption", "wallAbsorption");
  ("setWallThermalEmissivity", "wallEmissivity"); ("setWallU", "wallU"); ("setWindowArea", "windowArea");
  ("setWindowSCF", "windowSCF"); ("setWindowSDF", "windowSDF"); ("setWindowSHGC", "windowSHGC");
  ("setWindowU", "windowU")]%string.
(** ... and a string (names of UserModel.cpp 144-153 and UserModel.hpp 136). *)
Definition documented_texts : list (string * string) := [
  ("setBemType", "bemtype"); ("setDhwEnergyCarrier", "dhwfueltype"); ("setHeatingEnergyCarrier", "heatingfueltype");
  ("setVentilationType", "ventilationtype"); ("setWeatherFilePath", "weatherfilepath")]%string.
(** Parameters documented as "Property is required" in UserModel.hpp, under the name in the file. *)
Definition documented_required : list string := [
  "weatherfilepath";
  "infiltrationrateoccupied";
  "buildingheight";
  "occupancydayfirst";
  "occupancydaylast";
  "constantilluminationcontrolmultiplier";
  "electricappliancepowerdensityoccupied";
  "electricappliancepowerdensityunoccupied";
  "electricAppliancePowerFixedOccupied";
  "electricAppliancePowerFixedUnoccupied";
  "gasAppliancePowerFixedOccupied";
  "gasAppliancePowerFixedUnoccupied";
  "gasappliancepowerdensityoccupied";
  "gasappliancepowerdensityunoccupied";
  "lightingoccupancysensordimmingfraction";
  "coolingsetpointoccupied";
  "coolingpumpcontrol";
  "coolingsystemcop";
  "coolingsystemiplvtocopratio";
  "coolingsetpointunoccupied";
  "hvaccoolinglossfactor";
  "dhwdemand";
  "dhwdistributionefficiency";
  "dhwsystemefficiency";
  "heatingsetpointoccupied";
  "heatingpumpcontrol";
  "heatingsystemefficiency";
  "heatingsetpointunoccupied";
  "hvacheatinglossfactor";
  "hvacwastefactor";
  "daylightsensordimmingfraction";
  "exteriorlightingpower";
  "lightingPowerFixedOccupied";
  "lightingPowerFixedUnoccupied";
  "lightingpowerdensityoccupied";
  "lightingpowerdensityunoccupied";
  "terrainclass";
  "occupancyhourfirst";
  "occupancyhourlast";
  "heatgainperperson";
  "peopledensityoccupied";
  "peopledensityunoccupied";
  "schedulefilepath";
  "exteriorheatcapacity";
  "floorarea";
  "interiorheatcapacity";
  "wallArea";
  "wallAbsorption";
  "wallEmissivity";
  "wallU";
  "windowArea";
  "windowSCF";
  "windowSDF";
  "windowSHGC";
  "windowU";
  "exhaustairrecirculation";
  "fanflowcontrolfactor";
  "ventilationintakerateoccupied";
  "heatrecovery";
  "infiltrationRateUnoccupied";
  "specificfanpower";
  "ventilationExhaustRateOccupied";
  "ventilationExhaustRateUnoccupied";
  "ventilationIntakeRateUnoccupied"
]%string.
(** ... and a bool or an integer. *)
Definition documented_flags : list (string * string) := [
  ("setForcedAirCooling", "forcedaircooling"); ("setForcedAirHeating", "forcedairheating")]%string.
Definition documented_integers : list (string * string) := [("setVent_rate_flag", "vent_rate_flag")]%string.

(** The call that says the same as the entry of a building file under a documented name.  A
    vector is written from north in the file and given from south in the call. *)
Inductive same_setting {T} {N : Num T} (rd : reader T) (m : props) : string -> call T -> Prop :=
| setting_number g key s x : In (g, key) documented_numbers ->
    getProperty m (tx key) = Some s -> rd_stod rd s = Value x -> same_setting rd m key (CNumber (setter_name g) x)
| setting_vector f key xs ys : In (f, key) documented_vectors ->
    getPropertyAsDoubleVector rd m (tx key) = Ok (Some xs) -> same_directions xs ys -> same_setting rd m key (CVector f ys)
| setting_text f key s : In (f, key) documented_texts ->
    getProperty m (tx key) = Some s -> same_setting rd m key (CText f s)
| setting_flag f key (b : bool) : In (f, key) documented_flags ->
    getProperty m (tx key) = Some (tx (if b then "true" else "false")) -> same_setting rd m key (CBool f b)
| setting_integer f key s z : In (f, key) documented_integers ->
    getProperty m (tx key) = Some s -> rd_stoi rd s = Value z -> same_setting rd m key (CInt f z).

(** The parameters documented as required that UserModel.cpp reads only when compiled for the
    unit tests (lines 176-188). *)
Definition only_in_tests : list string := [
  "electricAppliancePowerFixedOccupied"; "electricAppliancePowerFixedUnoccupied";
  "gasAppliancePowerFixedOccupied"; "gasAppliancePowerFixedUnoccupied";
  "lightingPowerFixedOccupied"; "lightingPowerFixedUnoccupied"; "infiltrationRateUnoccupied";
  "ventilationExhaustRateUnoccupied"; "ventilationIntakeRateUnoccupied"; "schedulefilepath"]%string.

(** All of some calls in turn; an exception ends it. *)
Fixpoint all_calls {T} {N : Num T} (l : list (call T)) (u : user_state T) : option (outcome (user_state T)) :=
  match l with
  | [] => Some (Ok u)
  | c :: l => match invoke c u with Some (Ok u1) => all_calls l u1 | r => r end
  end.
