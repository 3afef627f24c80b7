(** C80, C81: the parameters each end use depends on. *)
From Coq Require Import Reals String List.
From Verif Require Import Base Num Xr M_Params M_UserModel M_Hourly M_Monthly M_Map S_Results S_Loading S_Monthly S_MonthlySound S_Inputs S_Year E_SmallOffice.
From Verif Require Import L_Inputs L_Inputs2 L_Inputs3 L_Office.
Import ListNotations.

(** An end use of an hourly simulation depends only on the parameters listed for it: whatever else
    two buildings differ in, its values agree in every row, hourly or monthly. *)
Theorem C80_hourly : forall (T : Type) (N : Num T) (u u' : building_model T) ws r0 agg rows r rows' r' k,
  same_parameters (hourly_inputs k) u u' ->
  simulate (bm_params u) ws r0 agg = Ok (rows, r) -> simulate (bm_params u') ws r0 agg = Ok (rows', r') ->
  map (fun row => nth_error row k) rows' = map (fun row => nth_error row k) rows.
Proof. exact @hourly_depends. Qed.
Print Assumptions C80_hourly.

Theorem C80_monthly : forall (T : Type) (N : Num T) (u u' : building_model T) w rows rows' k,
  same_parameters (monthly_inputs k) u u' ->
  simulateMonthly (bm_params u) w = Ok rows -> simulateMonthly (bm_params u') w = Ok rows' ->
  map (fun row => nth_error row k) rows' = map (fun row => nth_error row k) rows.
Proof. exact @monthly_depends. Qed.
Print Assumptions C80_monthly.

(** The same for the change of one parameter. *)
Theorem C80_hourly_one : forall (T : Type) (N : Num T) key k (u u' : building_model T) ws r0 agg rows r rows' r',
  ~ In key (hourly_inputs k) -> unchanged_except key u u' ->
  simulate (bm_params u) ws r0 agg = Ok (rows, r) -> simulate (bm_params u') ws r0 agg = Ok (rows', r') ->
  map (fun row => nth_error row k) rows' = map (fun row => nth_error row k) rows.
Proof. exact @hourly_alone. Qed.
Print Assumptions C80_hourly_one.

Theorem C80_monthly_one : forall (T : Type) (N : Num T) key k (u u' : building_model T) w rows rows',
  ~ In key (monthly_inputs k) -> unchanged_except key u u' ->
  simulateMonthly (bm_params u) w = Ok rows -> simulateMonthly (bm_params u') w = Ok rows' ->
  map (fun row => nth_error row k) rows' = map (fun row => nth_error row k) rows.
Proof. exact @monthly_alone. Qed.
Print Assumptions C80_monthly_one.

(** C81: fifty parameters of the building file have no effect whatever on the hourly engine, and
    twenty-six none on the monthly engine: outcome, table and state left behind are the same. *)
Theorem C81_hourly_refuted : forall (T : Type) (N : Num T) (u u' : building_model T) ws r0 agg,
  (forall key, In key all_parameters -> ~ In key hourly_unused -> same_parameter key u u') ->
  simulate (bm_params u') ws r0 agg = simulate (bm_params u) ws r0 agg.
Proof. exact @hourly_ignores. Qed.
Print Assumptions C81_hourly_refuted.

Theorem C81_monthly_refuted : forall (T : Type) (N : Num T) (u u' : building_model T) w,
  (forall key, In key all_parameters -> ~ In key monthly_unused -> same_parameter key u u') ->
  simulateMonthly (bm_params u') w = simulateMonthly (bm_params u) w.
Proof. exact @monthly_ignores. Qed.
Print Assumptions C81_monthly_refuted.

(** One of them: gas appliances, which do change every month of the monthly engine. *)
Theorem C81_gas_partial : forall p p' w rows rows', sound p -> sound p' -> pa_population p' = pa_population p ->
  bu_gasApplianceUnocc (pa_building p') = bu_gasApplianceUnocc (pa_building p) ->
  bu_gasApplianceOcc (pa_building p') <> bu_gasApplianceOcc (pa_building p) -> (0 < week_days (pa_population p))%R ->
  simulateMonthly (map_params Fin p) (fin_weather w) = Ok rows -> simulateMonthly (map_params Fin p') (fin_weather w) = Ok rows' ->
  forall month row row', nth_error rows month = Some row -> nth_error rows' month = Some row' -> nth_error row' gas_equip <> nth_error row gas_equip.
Proof. exact gas_equipment_differs. Qed.
Print Assumptions C81_gas_partial.

(** Two office buildings that differ in the heat given off by people. *)
Example C80_case : In "heatgainperperson"%string hourly_unused /\ ~ In "heatgainperperson"%string monthly_unused /\
  unchanged_except "heatgainperperson" (@office_file xr _) warmer_people /\
  po_heatGainPerPerson (pa_population (bm_params (@warmer_people xr _))) <> po_heatGainPerPerson (pa_population (bm_params (@office_file xr _))) /\
  forall agg t, exists rows r, simulate (bm_params (@office_file xr _)) (constant_year 8760 t) no_ratios agg = Ok (rows, r).
Proof. exact C80_case_l. Qed.
