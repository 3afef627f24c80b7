(** C104: year totals of the two engines for the end uses that do not depend on the room. *)
From Coq Require Import Reals Lra ZArith List.
From Verif Require Import Base Num Xr M_Params M_Hourly M_Monthly M_Map S_Calendar S_Schedule S_Year S_Totals S_Results S_Physical S_Monthly S_MonthlySound S_MonthlyBalance S_Engines E_Monthly L_Office L_MonthlyNaN L_MonthlyFin L_Engines.
Open Scope R_scope.

(** Interior equipment: equal if the power does not depend on occupancy. *)
Theorem C104_same_partial : forall (p : params_t R) tt w ws r0 mrows hrows r x, sound p -> physical p -> timetable_of p tt -> clock_timetable tt -> Z.of_nat (length ws) = 8760%Z ->
  simulateMonthly (map_params Fin p) (fin_weather w) = Ok mrows -> simulate (map_params Fin p) (map (map_weather Fin) ws) (map_ratios Fin r0) true = Ok (hrows, r) ->
  bu_elecApplianceOcc (pa_building p) = bu_elecApplianceUnocc (pa_building p) -> (year_total elec_int_equip mrows x <-> year_total elec_int_equip hrows x).
Proof. exact C104_same_l. Qed.
Print Assumptions C104_same_partial.

(** In general the totals differ by the hours that only one engine counts as occupied. *)
Theorem C104_difference : forall (p : params_t R) tt w ws r0 mrows hrows r, sound p -> physical p -> timetable_of p tt -> clock_timetable tt -> Z.of_nat (length ws) = 8760%Z ->
  simulateMonthly (map_params Fin p) (fin_weather w) = Ok mrows -> simulate (map_params Fin p) (map (map_weather Fin) ws) (map_ratios Fin r0) true = Ok (hrows, r) ->
  exists monthly hourly, year_total elec_int_equip mrows monthly /\ year_total elec_int_equip hrows hourly /\
    hourly - monthly = (bu_elecApplianceOcc (pa_building p) - bu_elecApplianceUnocc (pa_building p)) * extra_hours p tt / 1000.
Proof. exact C104_equipment_l. Qed.
Print Assumptions C104_difference.

(** Opening hours in the usual order: at least 48 hours a year for each open weekday, so the hourly engine always reports more. *)
Theorem C104_more : forall (p : params_t R) hs he ds de w ws r0 mrows hrows r, sound p -> physical p -> whole_schedule (pa_population p) hs he ds de -> clock_schedule hs he ds de -> (hs < he)%Z -> (ds <= de)%Z ->
  bu_elecApplianceUnocc (pa_building p) < bu_elecApplianceOcc (pa_building p) -> Z.of_nat (length ws) = 8760%Z ->
  simulateMonthly (map_params Fin p) (fin_weather w) = Ok mrows -> simulate (map_params Fin p) (map (map_weather Fin) ws) (map_ratios Fin r0) true = Ok (hrows, r) ->
  exists monthly hourly, year_total elec_int_equip mrows monthly /\ year_total elec_int_equip hrows hourly /\
    (bu_elecApplianceOcc (pa_building p) - bu_elecApplianceUnocc (pa_building p)) * (48 * IZR (de - ds + 1)) / 1000 <= hourly - monthly /\ monthly < hourly.
Proof. exact C104_more_l. Qed.
Print Assumptions C104_more.

(** The hourly engine has no hot water, no gas appliances and no gas cooling; it has exterior equipment. *)
Theorem C104_hourly : forall (p : params_t R) tt ws r0 rows r, physical p -> timetable_of p tt -> Z.of_nat (length ws) = 8760%Z ->
  simulate (map_params Fin p) (map (map_weather Fin) ws) (map_ratios Fin r0) true = Ok (rows, r) ->
  year_total elec_dhw rows 0 /\ year_total gas_dhw rows 0 /\ year_total gas_equip rows 0 /\ year_total gas_cooling rows 0 /\
  year_total elec_ext_equip rows (bu_externalEquipment (pa_building p) * 8760 / st_floorArea (pa_structure p) / 1000).
Proof. exact C104_hourly_l. Qed.
Print Assumptions C104_hourly.

(** The monthly engine has them, but no exterior equipment. *)
Theorem C104_monthly : forall (p : params_t R) w rows, sound p -> simulateMonthly (map_params Fin p) (fin_weather w) = Ok rows ->
  year_total elec_ext_equip rows 0 /\ year_total gas_equip rows (appliance_kWh p (bu_gasApplianceOcc (pa_building p)) (bu_gasApplianceUnocc (pa_building p)) 8760) /\
  (0 < ht_hotWaterDistributionEfficiency (pa_heating p) -> 0 < ht_hotWaterSystemEfficiency (pa_heating p) -> 0 <= water_year p ->
   exists k, (k = elec_dhw \/ k = gas_dhw) /\ year_total k rows (water_year p)).
Proof. exact C104_monthly_l. Qed.
Print Assumptions C104_monthly.

(** C104 is false as stated. *)
Theorem C104_refuted : exists (p : params_t R) w ws mrows hrows r monthly hourly, sound p /\ physical p /\ whole_schedule (pa_population p) 8 17 1 5 /\ Z.of_nat (length ws) = 8760%Z /\
  simulateMonthly (map_params Fin p) (fin_weather w) = Ok mrows /\ simulate (map_params Fin p) (map (map_weather Fin) ws) (map_ratios Fin no_ratios) true = Ok (hrows, r) /\
  year_total elec_int_equip mrows monthly /\ year_total elec_int_equip hrows hourly /\ monthly < hourly.
Proof. exact C104_refuted_l. Qed.
Print Assumptions C104_refuted.

(** The office, open from 8 to 17 on weekdays 1 to 5, meets all hypotheses. *)
Example C104_case : forall t, let p := scheduleOffice 8 17 1 5 in sound p /\ physical p /\ whole_schedule (pa_population p) 8 17 1 5 /\ clock_schedule 8 17 1 5 /\
  bu_elecApplianceUnocc (pa_building p) < bu_elecApplianceOcc (pa_building p) /\ Z.of_nat (length (constant_year 8760 t)) = 8760%Z /\
  exists mrows hrows r, simulateMonthly (map_params Fin p) (fin_weather mildYear) = Ok mrows /\
    simulate (map_params Fin p) (map (map_weather Fin) (constant_year 8760 t)) (map_ratios Fin no_ratios) true = Ok (hrows, r).
Proof. exact C104_case_l. Qed.
