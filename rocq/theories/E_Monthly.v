(** A building and a year of weather for the monthly engine. *)
From Coq Require Import ZArith.
From Verif Require Import Base Num M_Params M_Monthly E_SmallOffice.
Open Scope num_scope.

(** The small office with shading device 1 on every surface, an occupancy schedule, lighting power and a control flag. *)
Definition with_structure {T} (p : params_t T) (s : structure_t T) : params_t T :=
  mkParams s (pa_heating p) (pa_cooling p) (pa_ventilation p) (pa_lighting p) (pa_building p) (pa_population p) (pa_settings p) (pa_phys p) (pa_terrain p).
Definition with_population {T} (p : params_t T) (x : population_t T) : params_t T :=
  mkParams (pa_structure p) (pa_heating p) (pa_cooling p) (pa_ventilation p) (pa_lighting p) (pa_building p) x (pa_settings p) (pa_phys p) (pa_terrain p).
Definition with_building {T} (p : params_t T) (x : building_t T) : params_t T :=
  mkParams (pa_structure p) (pa_heating p) (pa_cooling p) (pa_ventilation p) (pa_lighting p) x (pa_population p) (pa_settings p) (pa_phys p) (pa_terrain p).
Definition with_lighting {T} (p : params_t T) (x : lighting_t T) : params_t T :=
  mkParams (pa_structure p) (pa_heating p) (pa_cooling p) (pa_ventilation p) x (pa_building p) (pa_population p) (pa_settings p) (pa_phys p) (pa_terrain p).
Definition shaded {T} (s : structure_t T) (v : list T) : structure_t T :=
  mkStructure (st_floorArea s) (st_wallArea s) (st_windowArea s) (st_wallU s) (st_windowU s) (st_wallEmissivity s) (st_wallAbsorption s)
    v (st_windowSHGC s) (st_windowSCF s) (st_interiorHeatCapacity s) (st_wallHeatCapacity s) (st_buildingHeight s) (st_infiltrationRate s)
    (st_R_se s) (st_irradianceForMaxShadingUse s) (st_shadingFactorAtMaxUse s) (st_totalAreaPerFloorArea s) (st_win_ff s) (st_win_F_W s) (st_R_sc_ext s).
(** Power density of interior lighting when occupied and not. *)
Definition lamps {T} (l : lighting_t T) (occ unocc : T) : lighting_t T :=
  mkLighting occ unocc (li_dimmingFraction l) (li_exteriorEnergy l) (li_n_day_start l) (li_n_day_end l) (li_n_weeks l)
    (li_elecInternalGains l) (li_permLightPowerDensity l) (li_presenceSensorAd l) (li_automaticAd l) (li_presenceAutoAd l) (li_manualSwitchAd l)
    (li_presenceSensorLux l) (li_automaticLux l) (li_presenceAutoLux l) (li_manualSwitchLux l) (li_naturallyLightedArea l).
Definition monthlyOffice {T} {N : Num T} : params_t T :=
  with_structure smallOffice (shaded (pa_structure smallOffice) (repeat (zn 1) 9)).

(** Every month the same: 10 degrees, wind 3 m/s, sun from hour 7 to hour 16. *)
Definition mildYear {T} {N : Num T} : mweather T :=
  {| mw_msolar := repeat (repeat (zn 100) 8) 12;
     mw_mhdbt := repeat (repeat (zn 10) 24) 12;
     mw_mhEgh := repeat (repeat (zn 0) 7 ++ repeat (zn 200) 10 ++ repeat (zn 0) 7) 12;
     mw_mEgh := repeat (zn 90) 12;
     mw_mdbt := repeat (zn 10) 12;
     mw_mwind := repeat (zn 3) 12 |}.
