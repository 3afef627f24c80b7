(** C29, C30, C31, C35, C60, C61: plant, pumps and the whole table of the monthly engine. *)
From Coq Require Import Reals Lra ZArith List.
From Verif Require Import Base Num Xr M_Params M_Hourly M_Monthly M_Map S_Calendar S_Schedule S_Results S_Physical S_Monthly S_MonthlySound S_MonthlyHeat S_MonthlyPlant L_Monthly3 L_MonthlyPlant L_MonthlyPlant2 E_House L_MonthlyHouse L_MonthlyHouse2.
Import ListNotations.
Open Scope R_scope.

(** C29 is false when gains equal losses: a house whose January gains do has no heating results for any month of the year. *)
Theorem C29_refuted : exists p w m rows, sound p /\ 0 < utilisation_exponent p /\ plant_ok p /\ monthlyAll (map_params Fin p) (fin_weather w) = Ok m /\ simulateMonthly (map_params Fin p) (fin_weather w) = Ok rows /\
  nth_error (ne_ht (mr_needs m)) 0 = Some NaN /\ forall row x, In row rows -> nth_error row gas_heating = Some x -> x = NaN.
Proof. exact C29_refuted_l. Qed.
Print Assumptions C29_refuted.

(** C30: each need plus its distribution losses over the plant efficiency, charged to one carrier.  Needs that are not numbers and a year without any need are left out. *)
Theorem C30_carrier_partial : forall (p : params_t R) w m rows qh qc, plant_ok p -> monthlyAll (map_params Fin p) w = Ok m -> simulateMonthly (map_params Fin p) w = Ok rows ->
  ne_ht (mr_needs m) = map Fin qh -> ne_cl (mr_needs m) = map Fin qc -> Rsum qc + Rsum qh <> 0 ->
  let z := repeat (Fin 0) 12 in
  let heat e := map (fun q => Fin (kWh_m2 p (with_heating_losses p qh qc q / e))) qh in
  let cool e := map (fun q => Fin (kWh_m2 p (with_cooling_losses p qh qc q / e))) qc in
  let he := pa_heating p in let co := pa_cooling p in
  (ht_DH_YesNo he <> 1 -> ht_energyType he = 1 -> is_series elec_heating rows (heat (ht_efficiency he + Rdblmin)) /\ is_series gas_heating rows z) /\
  (ht_DH_YesNo he <> 1 -> ht_energyType he <> 1 -> is_series elec_heating rows z /\ is_series gas_heating rows (heat (ht_efficiency he + Rdblmin))) /\
  (ht_DH_YesNo he = 1 -> is_series elec_heating rows z /\
     is_series gas_heating rows (map (fun q => Fin (kWh_m2 p (with_heating_losses p qh qc q * (1 - ht_frac_DH_free he) / (ht_eta_DH_sys he * ht_eta_DH_network he)))) qh)) /\
  (cl_DC_YesNo co <> 1 -> is_series elec_cooling rows (cool (cl_cop co * cl_partialLoadValue co + Rdblmin)) /\ is_series gas_cooling rows z) /\
  (cl_DC_YesNo co = 1 ->
     is_series elec_cooling rows (map (fun q => Fin (kWh_m2 p (with_cooling_losses p qh qc q * (1 - cl_eta_DC_frac_abs co) / (cl_eta_DC_COP co * cl_eta_DC_network co)))) qc) /\
     is_series gas_cooling rows (map (fun q => Fin (kWh_m2 p (with_cooling_losses p qh qc q * (1 - cl_frac_DC_free co) / cl_eta_DC_COP_abs co))) qc)).
Proof. exact C30_l. Qed.
Print Assumptions C30_carrier_partial.

(** The gas of absorption chillers does not depend on their share in district cooling. *)
Theorem C30_absorption : forall (p : params_t R) x w rows rows', simulateMonthly (map_params Fin p) w = Ok rows -> simulateMonthly (map_params Fin (set_absorption p x)) w = Ok rows' ->
  exists v, is_series gas_cooling rows v /\ is_series gas_cooling rows' v.
Proof. exact C30_absorption_l. Qed.
Print Assumptions C30_absorption.

(** District cooling with a share of absorption chillers of 0 burns gas in every month. *)
Theorem C30_refuted : exists p w rows, plant_ok p /\ sound p /\ cl_DC_YesNo (pa_cooling p) = 1 /\ cl_eta_DC_frac_abs (pa_cooling p) = 0 /\ simulateMonthly (map_params Fin p) (fin_weather w) = Ok rows /\
  forall row, In row rows -> exists r, nth_error row gas_cooling = Some (Fin r) /\ 0 < r.
Proof. exact C30_refuted_l. Qed.
Print Assumptions C30_refuted.

(** C31: with two rated pump powers the months add up to the rated energy of the year, each month having its share of the needs. *)
Theorem C31_pumps_partial : forall (p : params_t R) w m rows qh qc, 0 < st_floorArea (pa_structure p) -> monthlyAll (map_params Fin p) w = Ok m -> simulateMonthly (map_params Fin p) w = Ok rows ->
  ne_ht (mr_needs m) = map Fin qh -> ne_cl (mr_needs m) = map Fin qc -> Rsum qh + Rsum qc <> 0 ->
  ht_E_pumps (pa_heating p) * ht_pumpControlReduction (pa_heating p) <> 0 -> cl_E_pumps (pa_cooling p) * cl_pumpControlReduction (pa_cooling p) <> 0 ->
  exists v, is_series elec_pumps rows (map Fin v) /\ Rsum v = pump_year p /\
    forall i a b, nth_error qh i = Some a -> nth_error qc i = Some b -> nth_error v i = Some ((a + b) / (Rsum qh + Rsum qc) * pump_year p).
Proof. exact C31_l. Qed.
Print Assumptions C31_pumps_partial.

(** With one rated power the months add up as well, if no month is without need and neither heating nor cooling is absent. *)
Theorem C31_one_partial : forall (p : params_t R) w m rows qh qc, 0 < st_floorArea (pa_structure p) -> monthlyAll (map_params Fin p) w = Ok m -> simulateMonthly (map_params Fin p) w = Ok rows ->
  ne_ht (mr_needs m) = map Fin qh -> ne_cl (mr_needs m) = map Fin qc -> Rsum qh + Rsum qc <> 0 -> (forall q, In q (vadd qh qc) -> q <> 0) ->
  ht_E_pumps (pa_heating p) * ht_pumpControlReduction (pa_heating p) = 0 \/ cl_E_pumps (pa_cooling p) * cl_pumpControlReduction (pa_cooling p) = 0 ->
  Rsum (map (fun q => fst q / (fst q + snd q)) (combine qh qc)) <> 0 -> Rsum (map (fun q => snd q / (fst q + snd q)) (combine qh qc)) <> 0 ->
  exists v, is_series elec_pumps rows (map Fin v) /\ Rsum v = pump_year p.
Proof. exact C31_one_l. Qed.
Print Assumptions C31_one_partial.

(** A year without cooling and no cooling pump: each month has a hundredth of the largest double and more. *)
Theorem C31_refuted : exists p w m rows qh qc, sound p /\ plant_ok p /\ monthlyAll (map_params Fin p) (fin_weather w) = Ok m /\ simulateMonthly (map_params Fin p) (fin_weather w) = Ok rows /\
  ne_ht (mr_needs m) = map Fin qh /\ ne_cl (mr_needs m) = map Fin qc /\ Rsum qh + Rsum qc <> 0 /\ (forall q, In q qc -> q = 0) /\ cl_E_pumps (pa_cooling p) = 0 /\
  forall row, In row rows -> exists r, nth_error row elec_pumps = Some (Fin r) /\ Rdblmax / 100 / MJ_per_kWh <= r.
Proof. exact C31_refuted_l. Qed.
Print Assumptions C31_refuted.

(** C35: if no monthly need is negative, no entry of the table is. *)
Theorem C35_table_partial : forall (p : params_t R) w m rows qh qc, sound p -> plant_ok p -> water_ok p -> uses_nonneg p -> monthlyAll (map_params Fin p) (fin_weather w) = Ok m -> simulateMonthly (map_params Fin p) (fin_weather w) = Ok rows ->
  ne_ht (mr_needs m) = map Fin qh -> ne_cl (mr_needs m) = map Fin qc -> Rsum qh + Rsum qc <> 0 -> (forall q, In q qh -> 0 <= q) -> (forall q, In q qc -> 0 <= q) ->
  forall row x, In row rows -> In x row -> exists r, x = Fin r /\ 0 <= r.
Proof. exact C35_l. Qed.
Print Assumptions C35_table_partial.

(** An empty house at 28 degrees outside has negative gas for heating in every month. *)
Theorem C35_refuted : exists p w rows, sound p /\ vent_nonneg p /\ plant_ok p /\ water_ok p /\ uses_nonneg p /\ simulateMonthly (map_params Fin p) (fin_weather w) = Ok rows /\
  forall row, In row rows -> exists r, nth_error row gas_heating = Some (Fin r) /\ r < 0.
Proof. exact C35_refuted_l. Qed.
Print Assumptions C35_refuted.

(** C60: with finite monthly needs every entry of the table is finite. *)
Theorem C60_table_partial : forall (p : params_t R) w m rows qh qc, sound p -> plant_ok p -> water_ok p -> monthlyAll (map_params Fin p) (fin_weather w) = Ok m -> simulateMonthly (map_params Fin p) (fin_weather w) = Ok rows ->
  ne_ht (mr_needs m) = map Fin qh -> ne_cl (mr_needs m) = map Fin qc -> Rsum qh + Rsum qc <> 0 ->
  forall row x, In row rows -> In x row -> exists r, x = Fin r.
Proof. exact C60_table_l. Qed.
Print Assumptions C60_table_partial.

(** The needs are finite if no month has a zero divisor. *)
Theorem C60_months_partial : forall (p : params_t R) w m rows, sound p -> 0 < utilisation_exponent p -> plant_ok p -> water_ok p -> monthlyAll (map_params Fin p) (fin_weather w) = Ok m -> simulateMonthly (map_params Fin p) (fin_weather w) = Ok rows ->
  (forall i t tc te hve hvc sol phi, (i < 12)%nat -> month_data p w m i t tc te hve hvc sol phi ->
     let A := st_floorArea (pa_structure p) in let UA := envelope_UA (pa_structure p) in clear_month (month_loss UA A hve t te i) (month_loss UA A hvc tc te i) (month_gain phi sol i)) ->
  exists qh qc, ne_ht (mr_needs m) = map Fin qh /\ ne_cl (mr_needs m) = map Fin qc /\ (Rsum qh + Rsum qc <> 0 -> forall row x, In row rows -> In x row -> exists r, x = Fin r).
Proof. exact C60_l. Qed.
Print Assumptions C60_months_partial.

(** C61, false as stated: a month with losses and negative net gains has a negative heating need. *)
Theorem C61_negative : forall (p : params_t R) w m i, sound p -> monthlyAll (map_params Fin p) (fin_weather w) = Ok m -> (i < 12)%nat ->
  exists t tc te hve hvc sol phi, month_data p w m i t tc te hve hvc sol phi /\
  let L := month_loss (envelope_UA (pa_structure p)) (st_floorArea (pa_structure p)) hve t te i in let G := month_gain phi sol i in
  0 < L -> G + Rdblmin * (L + Rdblmin) < 0 -> exists r, nth_error (ne_ht (mr_needs m)) i = Some (Fin r) /\ r < 0.
Proof. exact C61_l. Qed.
Print Assumptions C61_negative.

(** An empty house, 24 degrees inside and 10 outside, radiating to the sky. *)
Theorem C61_refuted : exists p w m, sound p /\ vent_nonneg p /\ plant_ok p /\ uses_nonneg p /\ monthlyAll (map_params Fin p) (fin_weather w) = Ok m /\
  te_h (mr_temps m) = repeat (Fin 24) 12 /\ mw_mdbt w = repeat 10 12 /\ internalHeatGain (pa_structure (map_params Fin p)) (mr_gains m) = Fin 0 /\
  forall i, (i < 12)%nat -> exists r, nth_error (ne_ht (mr_needs m)) i = Some (Fin r) /\ r < 0.
Proof. exact C61_refuted_l. Qed.
Print Assumptions C61_refuted.

(** A house with appliances, 30 degrees outside, meets the hypotheses of the theorems above. *)
Example C30_case : let p := house 10 0 1 0 in sound p /\ 0 < utilisation_exponent p /\ plant_ok p /\ water_ok p /\ uses_nonneg p /\
  ht_E_pumps (pa_heating p) * ht_pumpControlReduction (pa_heating p) <> 0 /\ cl_E_pumps (pa_cooling p) * cl_pumpControlReduction (pa_cooling p) <> 0 /\
  exists m rows qh qc, monthlyAll (map_params Fin p) (fin_weather (steadyYear 30)) = Ok m /\ simulateMonthly (map_params Fin p) (fin_weather (steadyYear 30)) = Ok rows /\
    ne_ht (mr_needs m) = map Fin qh /\ ne_cl (mr_needs m) = map Fin qc /\ Rsum qh + Rsum qc <> 0 /\ (forall q, In q qh -> 0 <= q) /\ (forall q, In q qc -> 0 <= q) /\
    (forall i t tc te hve hvc sol phi, (i < 12)%nat -> month_data p (steadyYear 30) m i t tc te hve hvc sol phi ->
     let A := st_floorArea (pa_structure p) in let UA := envelope_UA (pa_structure p) in clear_month (month_loss UA A hve t te i) (month_loss UA A hvc tc te i) (month_gain phi sol i)).
Proof. exact warm_case. Qed.
(** So does the same house with one pump for [C31_one_partial]. *)
Example C31_one_case : let p := house 10 0 0 0 in exists m rows qh qc, monthlyAll (map_params Fin p) (fin_weather (steadyYear 30)) = Ok m /\ simulateMonthly (map_params Fin p) (fin_weather (steadyYear 30)) = Ok rows /\
  ne_ht (mr_needs m) = map Fin qh /\ ne_cl (mr_needs m) = map Fin qc /\ Rsum qh + Rsum qc <> 0 /\ (forall q, In q (vadd qh qc) -> q <> 0) /\
  cl_E_pumps (pa_cooling p) * cl_pumpControlReduction (pa_cooling p) = 0 /\
  Rsum (map (fun q => fst q / (fst q + snd q)) (combine qh qc)) <> 0 /\ Rsum (map (fun q => snd q / (fst q + snd q)) (combine qh qc)) <> 0.
Proof. exact warm_one_case. Qed.
