(** Two hours of the same building with the same weather, ventilation and lights. *)
From Coq Require Import Reals List.
From Verif Require Import Base Num Xr M_Params M_Hourly M_Map.
Open Scope R_scope.

(** The second hour is to be at least as warm: heat stored, equipment and set-points are not lower. *)
Record not_colder (sc sc' : sched R) (th th' : thermal R) : Prop := {
  nc_vent : sc_vent sc' = sc_vent sc;
  nc_lights : sc_intLight sc' = sc_intLight sc;
  nc_air : th_ti th' = th_ti th;
  nc_mass : th_TMT1 th <= th_TMT1 th';
  nc_equip : sc_intEquip sc <= sc_intEquip sc';
  nc_heat : sc_heatSP sc <= sc_heatSP sc';
  nc_cool : sc_coolSP sc <= sc_coolSP sc' }.
Definition same_setpoints (sc sc' : sched R) : Prop := sc_heatSP sc' = sc_heatSP sc /\ sc_coolSP sc' = sc_coolSP sc.
(** Only the set-points differ. *)
Definition same_sources (sc sc' : sched R) (th th' : thermal R) : Prop :=
  th_TMT1 th' = th_TMT1 th /\ sc_intEquip sc' = sc_intEquip sc.

(** The hour the engine calculates: needs, and temperatures of mass and air afterwards. *)
Definition hour_gives (p : params_t R) (i' : hinit xr) (sc : sched R) (w : weather R) (th : thermal R) (qh qc tm ta : R) : Prop :=
  let (h, t) := calculateHour (map_params Fin p) i' (map_sched Fin sc) (map_weather Fin w) (map_thermal Fin th) in
  hr_Qneed_ht h = Fin qh /\ hr_Qneed_cl h = Fin qc /\ th_TMT1 t = Fin tm /\ th_ti t = Fin ta.
