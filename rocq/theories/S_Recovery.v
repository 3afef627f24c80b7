(** The same building with other heat recovery and preheating of the ventilation air. *)
From Coq Require Import Reals List.
From Verif Require Import Num Xr M_Params M_Hourly S_Physical.
Open Scope R_scope.

(** The building with heat recovery of efficiency [e] and air preheated to [t] degrees, otherwise unchanged. *)
Definition with_recovery (p : params_t R) (e t : R) : params_t R :=
  let v := pa_ventilation p in
  mkParams (pa_structure p) (pa_heating p) (pa_cooling p)
    (mkVentilation (ve_supplyRate v) (ve_supplyDifference v) e (ve_exhaustAirRecirculated v) (ve_type v) (ve_fanPower v) (ve_fanControlFactor v) t (ve_n50 v)
       (ve_hzone v) (ve_p_exp v) (ve_zone_frac v) (ve_stack_exp v) (ve_stack_coeff v) (ve_wind_exp v) (ve_wind_coeff v) (ve_dCp v) (ve_vent_rate_flag v) (ve_H_ve v))
    (pa_lighting p) (pa_building p) (pa_population p) (pa_settings p) (pa_phys p) (pa_terrain p).
(** [e] and [t] recover and preheat at least as much as [p]. *)
Definition better_recovery (p : params_t R) (e t : R) : Prop :=
  ve_heatRecoveryEfficiency (pa_ventilation p) <= e /\ ve_preheat (pa_ventilation p) <= t.
