(** C90: two hours of the same building under the same weather, ventilation and lights, of which the second
    starts with at least as warm a mass, has at least as much equipment on, and set-points at least as high. *)
From Coq Require Import Reals Lra ZArith List.
From Verif Require Import Base Num Xr M_Params M_Hourly M_Map S_Physical S_HourSpec S_Balance S_Compare
  L_Office2 L_HourlyThm4 L_Compare2 L_Compare3.
Open Scope R_scope.

(** Every hour of a physical building with ordered set-points gives needs and temperatures. *)
Theorem C90_defined : forall p i' sc w th, physical p -> 0 <= sc_vent sc -> sc_heatSP sc <= sc_coolSP sc ->
  initialize (map_params Fin p) no_ratios = Ok i' ->
  exists qh qc tm ta, hour_gives p i' sc w th qh qc tm ta.
Proof. exact C90_defined_l. Qed.
Print Assumptions C90_defined.

(** Air and mass end no colder. *)
Theorem C90_warmer : forall p i' sc sc' w th th' qh qc tm ta qh' qc' tm' ta',
  physical p -> mass_slow p -> sources_ok p -> initialize (map_params Fin p) no_ratios = Ok i' ->
  0 <= sc_vent sc -> sc_heatSP sc <= sc_coolSP sc -> sc_heatSP sc' <= sc_coolSP sc' ->
  hour_gives p i' sc w th qh qc tm ta -> hour_gives p i' sc' w th' qh' qc' tm' ta' ->
  not_colder sc sc' th th' -> ta <= ta' /\ tm <= tm'.
Proof. exact C90_warmer_l. Qed.
Print Assumptions C90_warmer.

(** Under the same set-points more stored heat or more equipment never needs more heating or less cooling. *)
Theorem C90_needs : forall p i' sc sc' w th th' qh qc tm ta qh' qc' tm' ta',
  physical p -> mass_slow p -> sources_ok p -> initialize (map_params Fin p) no_ratios = Ok i' ->
  0 <= sc_vent sc -> sc_heatSP sc <= sc_coolSP sc -> sc_heatSP sc' <= sc_coolSP sc' ->
  hour_gives p i' sc w th qh qc tm ta -> hour_gives p i' sc' w th' qh' qc' tm' ta' ->
  not_colder sc sc' th th' -> same_setpoints sc sc' -> qh' <= qh /\ qc <= qc'.
Proof. exact C90_needs_l. Qed.
Print Assumptions C90_needs.

(** Equipment saves no more heating, and costs no more cooling, than the heat it gives off. *)
Theorem C90_saving : forall p i' sc sc' w th th' qh qc tm ta qh' qc' tm' ta',
  physical p -> mass_slow p -> sources_ok p -> initialize (map_params Fin p) no_ratios = Ok i' ->
  0 <= sc_vent sc -> sc_heatSP sc <= sc_coolSP sc -> sc_heatSP sc' <= sc_coolSP sc' ->
  hour_gives p i' sc w th qh qc tm ta -> hour_gives p i' sc' w th' qh' qc' tm' ta' ->
  not_colder sc sc' th th' -> th_TMT1 th' = th_TMT1 th ->
  qh - qh' <= sc_intEquip sc' - sc_intEquip sc /\ qc' - qc <= sc_intEquip sc' - sc_intEquip sc.
Proof. exact C90_saving_l. Qed.
Print Assumptions C90_saving.

(** Higher set-points alone never need less heating or more cooling. *)
Theorem C90_setpoints : forall p i' sc sc' w th th' qh qc tm ta qh' qc' tm' ta',
  physical p -> mass_slow p -> initialize (map_params Fin p) no_ratios = Ok i' ->
  0 <= sc_vent sc -> sc_heatSP sc <= sc_coolSP sc -> sc_heatSP sc' <= sc_coolSP sc' ->
  hour_gives p i' sc w th qh qc tm ta -> hour_gives p i' sc' w th' qh' qc' tm' ta' ->
  not_colder sc sc' th th' -> same_sources sc sc' th th' -> qh <= qh' /\ qc' <= qc.
Proof. exact C90_setpoints_l. Qed.
Print Assumptions C90_setpoints.

(** An hour with heating, without and with equipment of 5 W/m2. *)
Example C90_case : exists i', physical still_office /\ mass_slow still_office /\ sources_ok still_office /\ initialize (map_params Fin still_office) no_ratios = Ok i' /\
  not_colder (idle_sched 20 26) (with_equipment 5 (idle_sched 20 26)) {| th_TMT1 := 0; th_ti := 18 |} {| th_TMT1 := 0; th_ti := 18 |} /\
  exists qh qc tm ta, hour_gives still_office i' (idle_sched 20 26) (dark_hour 0) {| th_TMT1 := 0; th_ti := 18 |} qh qc tm ta /\ 0 < qh.
Proof. exact C90_case_l. Qed.

(** [mass_slow] is needed: in a building without heat capacity the warmer mass ends colder. *)
Theorem C90_light_refuted : exists p i' sc w th th' tm ta qh qc tm' ta' qh' qc', physical p /\ initialize (map_params Fin p) no_ratios = Ok i' /\
  0 <= sc_vent sc /\ sc_heatSP sc <= sc_coolSP sc /\ not_colder sc sc th th' /\
  hour_gives p i' sc w th qh qc tm ta /\ hour_gives p i' sc w th' qh' qc' tm' ta' /\ tm' < tm.
Proof. exact C90_light_l. Qed.
Print Assumptions C90_light_refuted.
