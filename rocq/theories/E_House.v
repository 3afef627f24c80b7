(** A simple house and a year without seasons for the monthly engine. *)
From Coq Require Import ZArith.
From Verif Require Import Base Num M_Params M_Monthly E_SmallOffice E_Monthly.
Open Scope num_scope.

(** A house without windows: 100 m2, 90 W/K, appliances [x] W/m2 all the time, emissivity [e] of the walls,
    nothing else inside; rated power [ec] of the cooling pumps, district cooling [dc]. *)
Definition houseStructure {T} {N : Num T} (e : T) : structure_t T :=
  let s := pa_structure smallOffice in
  mkStructure (zn 100) (repeat (zn 10) 9) (repeat (zn 0) 9) (repeat (zn 1) 9) (repeat (zn 0) 9) (repeat e 9) (repeat (zn 0) 9)
    (repeat (zn 1) 9) (repeat (zn 0) 9) (repeat (zn 1) 9) (zn 100000) (zn 0) (zn 3) (zn 1)
    (st_R_se s) (st_irradianceForMaxShadingUse s) (st_shadingFactorAtMaxUse s) (st_totalAreaPerFloorArea s) (st_win_ff s) (st_win_F_W s) (st_R_sc_ext s).
Definition houseCooling {T} {N : Num T} (ec dc : T) : cooling_t T :=
  let c := pa_cooling smallOffice in
  mkCooling (cl_tempOcc c) (cl_tempUnocc c) (cl_cop c) (cl_partialLoadValue c) (cl_hvacLossFactor c) (cl_pumpControlReduction c) (cl_forcedAir c) (cl_T_ctrl_flag c) (cl_dT_supp c)
       dc (cl_eta_DC_network c) (cl_eta_DC_COP c) (cl_eta_DC_frac_abs c) (cl_eta_DC_COP_abs c) (cl_frac_DC_free c) ec.
Definition house {T} {N : Num T} (x e ec dc : T) : params_t T :=
  let p := @smallOffice T N in
  mkParams (houseStructure e) (pa_heating p) (houseCooling ec dc) (pa_ventilation p) (lamps (pa_lighting p) (zn 0) (zn 0))
    (mkBuilding (zn 1) (zn 1) x x (zn 0) (zn 0) (zn 1) (zn 0)) (mkPopulation (zn 17) (zn 8) (zn 5) (zn 1) (zn 25) (zn 150) (zn 0))
    (pa_settings p) (pa_phys p) (pa_terrain p).
(** The mild year with another temperature. *)
Definition steadyYear {T} {N : Num T} (te : T) : mweather T :=
  {| mw_msolar := mw_msolar mildYear; mw_mhdbt := repeat (repeat te 24) 12; mw_mhEgh := mw_mhEgh mildYear;
     mw_mEgh := mw_mEgh mildYear; mw_mdbt := repeat te 12; mw_mwind := repeat (zn 3) 12 |}.
