(** The same building catching more or less sun, for the monthly engine. *)
From Coq Require Import Reals List.
From Verif Require Import Num Xr M_Params M_Monthly S_Physical S_MonthlyBalance.
Import ListNotations.
Open Scope R_scope.

(** Other absorption of the walls, solar transmission of the panes and correction of the windows. *)
Definition with_surfaces (p : params_t R) (ab sh sc : list R) : params_t R :=
  let s := pa_structure p in
  mkParams (mkStructure (st_floorArea s) (st_wallArea s) (st_windowArea s) (st_wallU s) (st_windowU s) (st_wallEmissivity s) ab (st_windowSDF s)
      sh sc (st_interiorHeatCapacity s) (st_wallHeatCapacity s) (st_buildingHeight s) (st_infiltrationRate s) (st_R_se s)
      (st_irradianceForMaxShadingUse s) (st_shadingFactorAtMaxUse s) (st_totalAreaPerFloorArea s) (st_win_ff s) (st_win_F_W s) (st_R_sc_ext s))
    (pa_heating p) (pa_cooling p) (pa_ventilation p) (pa_lighting p) (pa_building p) (pa_population p) (pa_settings p) (pa_phys p) (pa_terrain p).
(** The same outdoor temperature and wind, any sun. *)
Definition same_air (w w' : mweather R) : Prop := mw_mdbt w' = mw_mdbt w /\ mw_mwind w' = mw_mwind w.
(** In month [i] every surface of [w'] sees at least the radiation of [w]. *)
Definition no_darker (w w' : mweather R) (i : nat) : Prop := forall k, (k < 9)%nat -> radiation w i k <= radiation w' i k.
Definition lit_month (w : mweather R) (i : nat) : Prop := forall k, (k < 9)%nat -> 0 <= radiation w i k.
(** Surfaces, shares and resistances are not negative. *)
Record takes_sun (s : structure_t R) : Prop := {
  ts_win : all_nonneg (st_windowArea s); ts_wall : all_nonneg (st_wallArea s); ts_wallU : all_nonneg (st_wallU s); ts_abs : all_nonneg (st_wallAbsorption s);
  ts_shgc : all_nonneg (st_windowSHGC s); ts_scf : all_nonneg (st_windowSCF s);
  ts_ff : st_win_ff s <= 1; ts_fw : 0 <= st_win_F_W s; ts_rsc : 0 <= st_R_sc_ext s }.
(** Surfaces that take at least as much. *)
Definition takes_more (p : params_t R) (ab sh sc : list R) : Prop :=
  Forall2 Rle (st_wallAbsorption (pa_structure p)) ab /\ Forall2 Rle (st_windowSHGC (pa_structure p)) sh /\ Forall2 Rle (st_windowSCF (pa_structure p)) sc.
(** The same weather with radiation [r] on every surface in every month. *)
Definition with_sun (w : mweather R) (r : R) : mweather R :=
  {| mw_msolar := repeat (repeat r 8) 12; mw_mhdbt := mw_mhdbt w; mw_mhEgh := mw_mhEgh w; mw_mEgh := repeat r 12; mw_mdbt := mw_mdbt w; mw_mwind := mw_mwind w |}.
