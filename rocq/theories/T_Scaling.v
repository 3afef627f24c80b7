(** C89: end uses that are proportional, or inversely proportional, to a parameter. *)
From Coq Require Import Reals String List.
From Verif Require Import Base Num Xr M_Params M_UserModel M_Hourly M_Monthly S_Results S_Loading S_Inputs S_Scaling E_SmallOffice E_Monthly.
From Verif Require Import L_Inputs2 L_Office L_Scaling3 L_Scaling4 L_Scaling5 L_Scaling8.
Import ListNotations.

(** Hourly engine: multiply the listed parameters by [c] and leave the others the end use depends on
    unchanged. Then every row of that end use is multiplied by [c], or divided by [c]. *)
Theorem C89_hourly : forall c u u' ws r0 agg rows r rows' r' k keys d,
  (0 < c)%R -> In (k, keys, d) hourly_scaling ->
  (forall key, In key keys -> multiplied c key u u') -> same_parameters (without keys (hourly_inputs k)) u u' ->
  simulate (bm_params u) ws r0 agg = Ok (rows, r) -> simulate (bm_params u') ws r0 agg = Ok (rows', r') ->
  column k rows' = all_times (factor d c) (column k rows).
Proof. exact C89_hourly_l. Qed.
Print Assumptions C89_hourly.

(** Monthly engine: the same for the end uses that are not computed from a heating or cooling need,
    if no divisor is zero. *)
Theorem C89_monthly : forall c u u' w rows rows' k keys d,
  (0 < c)%R -> In (k, keys, d) monthly_scaling -> (forall key, In key divisors -> nonzero_parameter key u) ->
  (forall key, In key keys -> multiplied c key u u') -> same_parameters (without keys (monthly_inputs k)) u u' ->
  simulateMonthly (bm_params u) w = Ok rows -> simulateMonthly (bm_params u') w = Ok rows' ->
  column k rows' = all_times (factor d c) (column k rows).
Proof. exact C89_monthly_l. Qed.
Print Assumptions C89_monthly.

(** Monthly engine, pumps: if no parameter of the pumps is zero. *)
Theorem C89_monthly_pumps : forall c u u' w rows rows' keys,
  (0 < c)%R -> In keys [pump_powers; pump_controls] ->
  (forall key, In key (["floorarea"%string] ++ pump_powers ++ pump_controls) -> nonzero_parameter key u) ->
  (forall key, In key keys -> multiplied c key u u') -> same_parameters (without keys (monthly_inputs elec_pumps)) u u' ->
  simulateMonthly (bm_params u) w = Ok rows -> simulateMonthly (bm_params u') w = Ok rows' ->
  column elec_pumps rows' = all_times c (column elec_pumps rows).
Proof. exact C89_pumps_l. Qed.
Print Assumptions C89_monthly_pumps.

(** Monthly engine, heating: inverse to the efficiency plus the smallest positive normal double. *)
Theorem C89_monthly_heating : forall e e' u u' w rows rows' k,
  (0 <= e)%R -> (0 <= e')%R -> In k [elec_heating; gas_heating] -> nonzero_parameter "floorarea" u ->
  own_plant "dh_yesno" "frac_dh_free" "eta_dh_sys" "eta_dh_network" u ->
  has_value "heatingsystemefficiency" e u -> has_value "heatingsystemefficiency" e' u' ->
  same_parameters (without ["heatingsystemefficiency"%string] (monthly_inputs k)) u u' ->
  simulateMonthly (bm_params u) w = Ok rows -> simulateMonthly (bm_params u') w = Ok rows' ->
  column k rows' = all_times (efficiency_ratio e e') (column k rows).
Proof. exact C89_heating_l. Qed.
Print Assumptions C89_monthly_heating.

(** Monthly engine, cooling: the efficiency is the coefficient of performance times the part load ratio. *)
Theorem C89_monthly_cooling : forall e e' q u u' w rows rows',
  (0 <= e * q)%R -> (0 <= e' * q)%R -> nonzero_parameter "floorarea" u ->
  own_plant "dc_yesno" "eta_dc_frac_abs" "eta_dc_cop" "eta_dc_network" u ->
  has_value "coolingsystemcop" e u -> has_value "coolingsystemcop" e' u' -> has_value "coolingsystemiplvtocopratio" q u ->
  same_parameters (without ["coolingsystemcop"%string] (monthly_inputs elec_cooling)) u u' ->
  simulateMonthly (bm_params u) w = Ok rows -> simulateMonthly (bm_params u') w = Ok rows' ->
  column elec_cooling rows' = all_times (efficiency_ratio (e * q) (e' * q)) (column elec_cooling rows).
Proof. exact C89_cooling_l. Qed.
Print Assumptions C89_monthly_cooling.

(** The office with a boiler twice as efficient, over any constant year. *)
Example C89_hourly_case : In (gas_heating, ["heatingsystemefficiency"%string], Inverse) hourly_scaling /\
  (forall key, In key ["heatingsystemefficiency"%string] -> multiplied 2 key office_file better_boiler) /\
  same_parameters (without ["heatingsystemefficiency"%string] (hourly_inputs gas_heating)) office_file better_boiler /\
  forall agg t, (exists rows r, simulate (bm_params office_file) (constant_year 8760 t) no_ratios agg = Ok (rows, r)) /\
    (exists rows r, simulate (bm_params better_boiler) (constant_year 8760 t) no_ratios agg = Ok (rows, r)).
Proof. exact boiler_hypotheses. Qed.

(** The office with twice the demand for hot water. *)
Example C89_monthly_case : In (gas_dhw, ["dhwdemand"%string], Proportional) monthly_scaling /\
  (forall key, In key divisors -> nonzero_parameter key coded_file) /\
  (forall key, In key ["dhwdemand"%string] -> multiplied 2 key coded_file more_water) /\
  same_parameters (without ["dhwdemand"%string] (monthly_inputs gas_dhw)) coded_file more_water /\
  (exists rows, simulateMonthly (bm_params coded_file) mildYear = Ok rows) /\
  (exists rows, simulateMonthly (bm_params more_water) mildYear = Ok rows).
Proof. exact water_hypotheses. Qed.

(** The office with a boiler of efficiency 3; it has its own boiler and chiller, and pumps. *)
Example C89_plant_case : nonzero_parameter "floorarea" coded_file /\
  own_plant "dh_yesno" "frac_dh_free" "eta_dh_sys" "eta_dh_network" coded_file /\
  own_plant "dc_yesno" "eta_dc_frac_abs" "eta_dc_cop" "eta_dc_network" coded_file /\
  (exists e, (0 <= e)%R /\ has_value "heatingsystemefficiency" e coded_file) /\ has_value "heatingsystemefficiency" 3 coded_boiler /\
  same_parameters (without ["heatingsystemefficiency"%string] (monthly_inputs gas_heating)) coded_file coded_boiler /\
  (forall key, In key (["floorarea"%string] ++ pump_powers ++ pump_controls) -> nonzero_parameter key coded_file) /\
  (exists rows, simulateMonthly (bm_params coded_file) mildYear = Ok rows) /\
  (exists rows, simulateMonthly (bm_params coded_boiler) mildYear = Ok rows).
Proof. exact coded_boiler_case. Qed.
