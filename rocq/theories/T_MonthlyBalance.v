(** C32, C62-C68: gains, air, fans, appliances and week temperatures of the monthly engine against independent formulas. *)
From Coq Require Import Reals Lra ZArith List.
From Verif Require Import Base Num Xr M_Params M_Hourly M_Monthly M_Map S_Calendar S_Schedule S_Results S_Physical S_Monthly S_MonthlySound S_MonthlyHeat S_MonthlyPlant S_MonthlyBalance S_MonthlyTemp L_MonthlyCase L_MonthlyBalance L_MonthlyWeek L_MonthlyNight E_Monthly E_House E_NightHouse.
Import ListNotations.
Open Scope R_scope.

(** C32: the temperature at the end of an unoccupied period is that of a room that follows Newton's law of cooling. *)
Theorem C32_law : forall (tau s t te dt : R), 0 < tau -> 0 <= t -> exists r, decayEnd (Fin tau) (Fin s) (mkPeriod (Fin t) (Fin te) (Fin dt)) = Fin r /\
  (forall f, floats tau (te + dt) f -> f 0 = s -> r = f t) /\ exists f, floats tau (te + dt) f /\ f 0 = s.
Proof. exact C32_law_l. Qed.
Print Assumptions C32_law.

(** And its mean is the integral of that temperature over the period, divided by its length. *)
Theorem C32_mean_law : forall (tau s t te dt : R), 0 < tau -> 0 < t -> exists r, decayMean (Fin tau) (Fin s) (mkPeriod (Fin t) (Fin te) (Fin dt)) = Fin r /\
  forall f F, floats tau (te + dt) f -> f 0 = s -> (forall x, derivable_pt_lim F x (f x)) -> r = (F t - F 0) / t.
Proof. exact C32_mean_law_l. Qed.
Print Assumptions C32_mean_law.

(** C62: the solar gain of a month, surface by surface. *)
Theorem C62_solar : forall (p : params_t R) w m i, sound p -> monthlyAll (map_params Fin p) (fin_weather w) = Ok m -> (i < 12)%nat ->
  nth_error (mr_Esol m) i = Some (Fin (solar_gain (pa_structure p) w i)).
Proof. exact C62_l. Qed.
Print Assumptions C62_solar.

(** C63: the internal gains are those of people, appliances and the reported interior lighting. *)
Theorem C63_internal : forall (p : params_t R) w m rows, sound p -> monthlyAll (map_params Fin p) (fin_weather w) = Ok m -> simulateMonthly (map_params Fin p) (fin_weather w) = Ok rows ->
  exists light fr, length fr = 12%nat /\ Rsum fr = 1 + 2 / 10 ^ 16 /\
    (forall j, (j < 12)%nat -> exists f, nth_error fr j = Some f /\ Rabs (f - IZR (nth j days_in_month 0%Z) / 365) <= 1 / 10 ^ 15) /\
    is_series elec_int_lights rows (map (fun f => Fin (light * f)) fr) /\
    internalHeatGain (pa_structure (map_params Fin p)) (mr_gains m) = Fin (internal_gain p light).
Proof. exact C63_l. Qed.
Print Assumptions C63_internal.

(** C64: leakage by stack and wind and the ventilation system.  For infiltration rate 0 see C59. *)
Theorem C64_air_partial : forall (p : params_t R) w m i, sound p -> st_infiltrationRate (pa_structure p) <> 0 -> monthlyAll (map_params Fin p) (fin_weather w) = Ok m -> (i < 12)%nat ->
  exists t tc te v, nth_error (te_h (mr_temps m)) i = Some (Fin t) /\ nth_error (te_c (mr_temps m)) i = Some (Fin tc) /\ nth_error (mw_mdbt w) i = Some te /\ nth_error (mw_mwind w) i = Some v /\
    nth_error (mr_Hve_ht m) i = Some (Fin (ventilation_coefficient p te v t)) /\ nth_error (mr_Hve_cl m) i = Some (Fin (ventilation_coefficient p te v tc)).
Proof. exact C64_l. Qed.
Print Assumptions C64_air_partial.

(** C65: the appliance columns of the table. *)
Theorem C65_appliances : forall (p : params_t R) w rows, sound p -> simulateMonthly (map_params Fin p) (fin_weather w) = Ok rows ->
  is_series elec_int_equip rows (map (fun i => Fin (appliance_kWh p (bu_elecApplianceOcc (pa_building p)) (bu_elecApplianceUnocc (pa_building p)) (month_hours i))) (seq 0 12)) /\
  is_series gas_equip rows (map (fun i => Fin (appliance_kWh p (bu_gasApplianceOcc (pa_building p)) (bu_gasApplianceUnocc (pa_building p)) (month_hours i))) (seq 0 12)).
Proof. exact C65_l. Qed.
Print Assumptions C65_appliances.

(** C66: the fan column, if needs are finite and no divisor vanishes. *)
Theorem C66_fans_partial : forall (p : params_t R) w m rows i t tc qh qc, sound p -> monthlyAll (map_params Fin p) (fin_weather w) = Ok m -> simulateMonthly (map_params Fin p) (fin_weather w) = Ok rows -> (i < 12)%nat ->
  nth_error (te_h (mr_temps m)) i = Some (Fin t) -> nth_error (te_c (mr_temps m)) i = Some (Fin tc) ->
  ne_ht (mr_needs m) = map Fin qh -> ne_cl (mr_needs m) = map Fin qc ->
  ph_rhoCpAir (pa_phys p) * (ht_tempOcc (pa_heating p) + ht_dT_supp (pa_heating p) - t) + Rdblmin <> 0 ->
  ph_rhoCpAir (pa_phys p) * (tc - (cl_tempOcc (pa_cooling p) - cl_dT_supp (pa_cooling p))) + Rdblmin <> 0 ->
  exists row h c, nth_error rows i = Some row /\ nth_error qh i = Some h /\ nth_error qc i = Some c /\
    nth_error row elec_fans = Some (Fin (fan_kWh p (fan_air p t tc h c i Rdblmin))).
Proof. exact C66_l. Qed.
Print Assumptions C66_fans_partial.

(** The fans run at least for the ventilation of the working hours. *)
Theorem C66_floor : forall (p : params_t R) t tc h c i d, 0 < st_floorArea (pa_structure p) -> 0 <= ve_fanPower (pa_ventilation p) * ve_fanControlFactor (pa_ventilation p) ->
  fan_kWh p (ve_supplyRate (pa_ventilation p) * occupied_share (pa_population p) * (month_megaseconds i * 1000)) <= fan_kWh p (fan_air p t tc h c i d).
Proof. exact C66_floor_l. Qed.
Print Assumptions C66_floor.

(** C67: the temperatures of a month from the five periods between two working weeks; but week nights get the mean of a weekend day. *)
Theorem C67_week_partial : forall (p : params_t R) w m z i, sound p -> week_case p w -> ntrunc (bu_bem (pa_building p)) = Some z -> monthlyAll (map_params Fin p) (fin_weather w) = Ok m -> (i < 12)%nat ->
  let ch := ht_tempOcc (pa_heating p) - bem_relief z in let cc := cl_tempOcc (pa_cooling p) + bem_relief z in
  (ht_T_ctrl_flag (pa_heating p) = 1 -> nth_error (te_h (mr_temps m)) i = Some (Fin (week_temperature p w i 1 ch ch (ht_tempUnocc (pa_heating p))))) /\
  (cl_T_ctrl_flag (pa_cooling p) = 1 -> nth_error (te_c (mr_temps m)) i = Some (Fin (week_temperature p w i 1 (Rmin ch (cl_tempUnocc (pa_cooling p))) cc (cl_tempUnocc (pa_cooling p))))).
Proof. exact C67_l. Qed.
Print Assumptions C67_week_partial.

(** A house at 10 degrees at night is reported colder than with the mean of its nights. *)
Theorem C67_refuted : exists p w m t, sound p /\ week_case p w /\ ht_T_ctrl_flag (pa_heating p) = 1 /\ ntrunc (bu_bem (pa_building p)) = Some 1%Z /\ monthlyAll (map_params Fin p) (fin_weather w) = Ok m /\
  nth_error (te_h (mr_temps m)) 0 = Some (Fin t) /\ t < week_temperature p w 0 0 (ht_tempOcc (pa_heating p)) (ht_tempOcc (pa_heating p)) (ht_tempUnocc (pa_heating p)).
Proof. exact C67_refuted_l. Qed.
Print Assumptions C67_refuted.

(** C68, false as stated: in a building open seven days a week the temperature is the set-point, whatever the set-back. *)
Theorem C68_every_day : forall (p : params_t R) w m z i, sound p -> week_days (pa_population p) = 7 -> moderate p w -> (forall row, In row (mw_mhEgh w) -> all_nonneg row) -> ntrunc (bu_bem (pa_building p)) = Some z ->
  monthlyAll (map_params Fin p) (fin_weather w) = Ok m -> (i < 12)%nat -> nth_error (te_h (mr_temps m)) i = Some (Fin (ht_tempOcc (pa_heating p) - bem_relief z)).
Proof. exact C68_l. Qed.
Print Assumptions C68_every_day.

(** A house without gains, set back to the 10 degrees outdoors: 24 degrees all year. *)
Theorem C68_refuted : exists p w m, sound p /\ moderate p w /\ week_days (pa_population p) = 7 /\ ht_T_ctrl_flag (pa_heating p) = 1 /\ ht_tempUnocc (pa_heating p) = 10 /\ ht_tempOcc (pa_heating p) = 24 /\
  (forall row x, In row (mw_mhdbt w) -> In x row -> x = 10) /\ idle_gain p = 0 /\ (forall i, solar_gain (pa_structure p) w i = 0) /\
  monthlyAll (map_params Fin p) (fin_weather w) = Ok m /\ forall i, (i < 12)%nat -> nth_error (te_h (mr_temps m)) i = Some (Fin 24).
Proof. exact C68_refuted_l. Qed.
Print Assumptions C68_refuted.

(** A house meets the hypotheses of C62 to C67. *)
Example C67_case : let p := nightHouse 10 1 5 in sound p /\ week_case p (steadyYear 10) /\ ntrunc (bu_bem (pa_building p)) = Some 1%Z /\
  ht_T_ctrl_flag (pa_heating p) = 1 /\ cl_T_ctrl_flag (pa_cooling p) = 1 /\ st_infiltrationRate (pa_structure p) <> 0 /\ 0 <= ve_fanPower (pa_ventilation p) * ve_fanControlFactor (pa_ventilation p) /\
  exists m rows, monthlyAll (map_params Fin p) (fin_weather (steadyYear 10)) = Ok m /\ simulateMonthly (map_params Fin p) (fin_weather (steadyYear 10)) = Ok rows.
Proof. exact night_case. Qed.
(** A house with appliances, 30 degrees outdoors, meets those of [C66_fans_partial]. *)
Example C66_case : let p := house 10 0 1 0 in sound p /\ exists m rows qh qc t tc, monthlyAll (map_params Fin p) (fin_weather (steadyYear 30)) = Ok m /\ simulateMonthly (map_params Fin p) (fin_weather (steadyYear 30)) = Ok rows /\
  ne_ht (mr_needs m) = map Fin qh /\ ne_cl (mr_needs m) = map Fin qc /\ nth_error (te_h (mr_temps m)) 0 = Some (Fin t) /\ nth_error (te_c (mr_temps m)) 0 = Some (Fin tc) /\
  ph_rhoCpAir (pa_phys p) * (ht_tempOcc (pa_heating p) + ht_dT_supp (pa_heating p) - t) + Rdblmin <> 0 /\
  ph_rhoCpAir (pa_phys p) * (tc - (cl_tempOcc (pa_cooling p) - cl_dT_supp (pa_cooling p))) + Rdblmin <> 0.
Proof. exact fan_case. Qed.
