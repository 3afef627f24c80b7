(** The same building with another air tightness. *)
From Coq Require Import Reals List.
From Verif Require Import Num Xr M_Params M_Hourly S_Physical.
Open Scope R_scope.

(** The building with [n] air changes per hour at 50 Pa, otherwise unchanged. *)
Definition with_n50 (p : params_t R) (n : R) : params_t R :=
  let v := pa_ventilation p in
  mkParams (pa_structure p) (pa_heating p) (pa_cooling p)
    (mkVentilation (ve_supplyRate v) (ve_supplyDifference v) (ve_heatRecoveryEfficiency v) (ve_exhaustAirRecirculated v) (ve_type v) (ve_fanPower v) (ve_fanControlFactor v) (ve_preheat v) n
       (ve_hzone v) (ve_p_exp v) (ve_zone_frac v) (ve_stack_exp v) (ve_stack_coeff v) (ve_wind_exp v) (ve_wind_coeff v) (ve_dCp v) (ve_vent_rate_flag v) (ve_H_ve v))
    (pa_lighting p) (pa_building p) (pa_population p) (pa_settings p) (pa_phys p) (pa_terrain p).
(** At least as leaky as [p]. *)
Definition leakier (p : params_t R) (n : R) : Prop :=
  0 <= st_buildingHeight (pa_structure p) /\ ve_n50 (pa_ventilation p) <= n.
