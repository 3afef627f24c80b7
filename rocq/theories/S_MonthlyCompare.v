(** Variations of a building for the monthly engine. *)
From Coq Require Import Reals List ZArith.
From Verif Require Import Num Xr M_Params M_Monthly S_Physical S_Schedule S_MonthlySound S_MonthlyHeat.
Import ListNotations.
Open Scope R_scope.

(** The same building with appliances of [x] and [y] W/m2 in and outside the working hours, window U values [us]
    and heat capacity [c] of the interior. *)
Definition varied (p : params_t R) (x y : R) (us : list R) (c : R) : params_t R :=
  let s := pa_structure p in let b := pa_building p in
  mkParams (mkStructure (st_floorArea s) (st_wallArea s) (st_windowArea s) (st_wallU s) us (st_wallEmissivity s) (st_wallAbsorption s) (st_windowSDF s)
      (st_windowSHGC s) (st_windowSCF s) c (st_wallHeatCapacity s) (st_buildingHeight s) (st_infiltrationRate s) (st_R_se s)
      (st_irradianceForMaxShadingUse s) (st_shadingFactorAtMaxUse s) (st_totalAreaPerFloorArea s) (st_win_ff s) (st_win_F_W s) (st_R_sc_ext s))
    (pa_heating p) (pa_cooling p) (pa_ventilation p) (pa_lighting p)
    (mkBuilding (bu_lightingOccupancySensor b) (bu_constantIllumination b) x y (bu_gasApplianceOcc b) (bu_gasApplianceUnocc b) (bu_bem b) (bu_externalEquipment b))
    (pa_population p) (pa_settings p) (pa_phys p) (pa_terrain p).

(** No night or weekend set-back: either switched off, or the set-point outside the working hours is no relaxation.
    (For cooling the engine treats a relaxed set-point in the same way, see C58.) *)
Definition no_heat_setback (p : params_t R) (level : Z) : Prop :=
  ht_T_ctrl_flag (pa_heating p) <> 1 \/ (1 <= week_days (pa_population p) /\ ht_tempOcc (pa_heating p) - bem_relief level <= ht_tempUnocc (pa_heating p)).
Definition no_cool_setback (p : params_t R) (level : Z) : Prop :=
  cl_T_ctrl_flag (pa_cooling p) <> 1 \/ (1 <= week_days (pa_population p) /\ cl_tempOcc (pa_cooling p) + bem_relief level <= cl_tempUnocc (pa_cooling p)).

(** [q] has at most the appliances of [p], at least its window losses, at most its heat capacity. *)
Record leaner (p : params_t R) (x y : R) (us : list R) (c : R) : Prop := {
  le_occ : x <= bu_elecApplianceOcc (pa_building p);
  le_unocc : y <= bu_elecApplianceUnocc (pa_building p);
  le_windows : Forall2 Rle (st_windowU (pa_structure p)) us;
  le_mass : c <= st_interiorHeatCapacity (pa_structure p) }.
