(** C112: what preheating the ventilation air costs in the hourly calculation. *)
From Coq Require Import Reals Lra ZArith List.
From Verif Require Import Base Num Xr M_Params M_Hourly M_Map S_Physical S_Network S_Year S_HourSpec S_Balance S_Recovery S_Preheat
  L_Office2 L_HourlyThm4 L_Recovery L_Preheat.
Open Scope R_scope.

(** It is false that preheating is paid for: there is an hour in which air preheated to a higher temperature lowers the
    heating need while no other use of the hour grows. *)
Theorem C112_refuted : exists p t i i' sc w th h h' T T' qh qh', let q := preheated p t in
  physical p /\ mass_slow p /\ ve_preheat (pa_ventilation p) < t /\ 0 <= sc_vent sc /\ sc_heatSP sc <= sc_coolSP sc /\
  initialize (map_params Fin p) no_ratios = Ok i /\ initialize (map_params Fin q) no_ratios = Ok i' /\
  calculateHour (map_params Fin p) i (map_sched Fin sc) (map_weather Fin w) (map_thermal Fin th) = (h, T) /\
  calculateHour (map_params Fin q) i' (map_sched Fin sc) (map_weather Fin w) (map_thermal Fin th) = (h', T') /\
  hr_Qneed_ht h = Fin qh /\ hr_Qneed_ht h' = Fin qh' /\ qh' < qh /\ Forall2 at_most (other_uses h') (other_uses h).
Proof. exact C112_refuted_l. Qed.
Print Assumptions C112_refuted.

(** In any two heated hours from the same state the whole heat given to the supplied air is missing from the heating
    need, and it reappears nowhere: the temperatures and every other use but the fans are the same. *)
Theorem C112_free : forall p t i i' sc w th h h' T T' qh qh', let q := preheated p t in
  physical p -> mass_slow p -> initialize (map_params Fin p) no_ratios = Ok i -> initialize (map_params Fin q) no_ratios = Ok i' ->
  0 <= sc_vent sc -> sc_heatSP sc <= sc_coolSP sc ->
  calculateHour (map_params Fin p) i (map_sched Fin sc) (map_weather Fin w) (map_thermal Fin th) = (h, T) ->
  calculateHour (map_params Fin q) i' (map_sched Fin sc) (map_weather Fin w) (map_thermal Fin th) = (h', T') ->
  hr_Qneed_ht h = Fin qh -> hr_Qneed_ht h' = Fin qh' -> 0 < qh -> 0 < qh' ->
  qh - qh' = 0.34 * sp_supply p (sc_vent sc) * (sp_supplied q (we_temp w) - sp_supplied p (we_temp w)) /\ T' = T /\
  hr_Qneed_cl h' = hr_Qneed_cl h /\ hr_illum h' = hr_illum h /\ hr_illum_ext h' = hr_illum_ext h /\ hr_pump h' = hr_pump h /\ hr_plug h' = hr_plug h /\
  hr_extEquip h' = hr_extEquip h /\ hr_dhw h' = hr_dhw h /\
  (ht_forcedAir (pa_heating p) = false -> hr_fan h' = hr_fan h).
Proof. exact C112_free_l. Qed.
Print Assumptions C112_free.

(** With air heating the fans too use no more, since they carry less heat. *)
Theorem C112_fans : forall p t i i' sc w th h h' T T' qh qh', let q := preheated p t in
  physical p -> mass_slow p -> initialize (map_params Fin p) no_ratios = Ok i -> initialize (map_params Fin q) no_ratios = Ok i' ->
  0 <= sc_vent sc -> sc_heatSP sc <= sc_coolSP sc -> fan_defined p (th_ti th) -> 0 < fan_den_ht p (th_ti th) -> 0 <= ve_fanPower (pa_ventilation p) ->
  sp_supplied p (we_temp w) <= sp_supplied q (we_temp w) ->
  calculateHour (map_params Fin p) i (map_sched Fin sc) (map_weather Fin w) (map_thermal Fin th) = (h, T) ->
  calculateHour (map_params Fin q) i' (map_sched Fin sc) (map_weather Fin w) (map_thermal Fin th) = (h', T') ->
  hr_Qneed_ht h = Fin qh -> hr_Qneed_ht h' = Fin qh' -> 0 < qh -> 0 < qh' ->
  qh - qh' = 0.34 * sp_supply p (sc_vent sc) * (sp_supplied q (we_temp w) - sp_supplied p (we_temp w)) /\ T' = T /\ Forall2 at_most (other_uses h') (other_uses h).
Proof. exact C112_free2_l. Qed.
Print Assumptions C112_fans.

(** The office at 0 degrees outside, its air preheated to 10. *)
Example C112_case : let p := still_office in let q := preheated p 10 in let sc := airy_sched 20 26 in let w := dark_hour 0 in let th := {| th_TMT1 := 5; th_ti := 18 |} in
  physical p /\ mass_slow p /\ 0 <= sc_vent sc /\ sc_heatSP sc <= sc_coolSP sc /\ fan_defined p (th_ti th) /\ 0 < fan_den_ht p (th_ti th) /\ 0 <= ve_fanPower (pa_ventilation p) /\
  sp_supplied p (we_temp w) <= sp_supplied q (we_temp w) /\
  exists i i' h h' T T' qh qh', initialize (map_params Fin p) no_ratios = Ok i /\ initialize (map_params Fin q) no_ratios = Ok i' /\
  calculateHour (map_params Fin p) i (map_sched Fin sc) (map_weather Fin w) (map_thermal Fin th) = (h, T) /\
  calculateHour (map_params Fin q) i' (map_sched Fin sc) (map_weather Fin w) (map_thermal Fin th) = (h', T') /\
  hr_Qneed_ht h = Fin qh /\ hr_Qneed_ht h' = Fin qh' /\ 0 < qh /\ 0 < qh'.
Proof. exact C112_case_l. Qed.
