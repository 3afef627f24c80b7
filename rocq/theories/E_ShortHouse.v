(** A light house open one hour on two days, with a cooling set-point outside working hours below the one in them. *)
From Coq Require Import ZArith Reals.
From Verif Require Import Base Num Xr M_Params M_Monthly E_SmallOffice E_Monthly E_House.
Open Scope num_scope.

(** The house of [E_House] with another heat capacity of the interior per floor area. *)
Definition lightStructure {T} {N : Num T} : structure_t T :=
  let s := houseStructure (zn 0) in
  mkStructure (st_floorArea s) (st_wallArea s) (st_windowArea s) (st_wallU s) (st_windowU s) (st_wallEmissivity s) (st_wallAbsorption s)
    (st_windowSDF s) (st_windowSHGC s) (st_windowSCF s) (zn 16200) (st_wallHeatCapacity s) (st_buildingHeight s) (st_infiltrationRate s)
    (st_R_se s) (st_irradianceForMaxShadingUse s) (st_shadingFactorAtMaxUse s) (st_totalAreaPerFloorArea s) (st_win_ff s) (st_win_F_W s) (st_R_sc_ext s).
(** Cooling to 28 degrees in working hours, to 24.5 outside them. *)
Definition shortCooling {T} {N : Num T} : cooling_t T :=
  let c := houseCooling (zn 0) (zn 0) in
  mkCooling (cl_tempOcc c) (lit 245 10) (cl_cop c) (cl_partialLoadValue c) (cl_hvacLossFactor c) (cl_pumpControlReduction c) (cl_forcedAir c) (cl_T_ctrl_flag c) (cl_dT_supp c)
       (cl_DC_YesNo c) (cl_eta_DC_network c) (cl_eta_DC_COP c) (cl_eta_DC_frac_abs c) (cl_eta_DC_COP_abs c) (cl_frac_DC_free c) (cl_E_pumps c).
Definition shortHouse {T} {N : Num T} : params_t T :=
  let p := house (zn 0) (zn 0) (zn 0) (zn 0) in
  mkParams lightStructure (pa_heating p) shortCooling (pa_ventilation p) (pa_lighting p) (pa_building p)
    (mkPopulation (zn 9) (zn 8) (zn 2) (zn 1) (zn 25) (zn 150) (zn 0)) (pa_settings p) (pa_phys p) (pa_terrain p).
