(** The same building with other walls and roof. *)
From Coq Require Import Reals List.
From Verif Require Import Num Xr M_Params M_Hourly S_Physical.
Open Scope R_scope.

(** The building with U values [us] of walls and roof, otherwise unchanged. *)
Definition walled (p : params_t R) (us : list R) : params_t R :=
  let s := pa_structure p in
  mkParams (mkStructure (st_floorArea s) (st_wallArea s) (st_windowArea s) us (st_windowU s) (st_wallEmissivity s) (st_wallAbsorption s) (st_windowSDF s)
      (st_windowSHGC s) (st_windowSCF s) (st_interiorHeatCapacity s) (st_wallHeatCapacity s) (st_buildingHeight s) (st_infiltrationRate s) (st_R_se s)
      (st_irradianceForMaxShadingUse s) (st_shadingFactorAtMaxUse s) (st_totalAreaPerFloorArea s) (st_win_ff s) (st_win_F_W s) (st_R_sc_ext s))
    (pa_heating p) (pa_cooling p) (pa_ventilation p) (pa_lighting p) (pa_building p) (pa_population p) (pa_settings p) (pa_phys p) (pa_terrain p).
(** [us] loses at least as much heat as the walls and roof of [p], surface by surface. *)
Definition poorer_walls (p : params_t R) (us : list R) : Prop := Forall2 Rle (st_wallU (pa_structure p)) us.
(** Walls and roof take in no sun: each is unlit or reflects everything.
    (What they take in grows with their U value in ISO 13790, so that a poorly insulated dark roof is a better collector.) *)
Definition unlit_walls (p : params_t R) (w : weather R) : Prop :=
  forall k, nth k (st_wallAbsorption (pa_structure p)) 0 * nth k (we_sol w) 0 = 0.
