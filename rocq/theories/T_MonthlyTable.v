(** C18, C24, C25, C26, C28: what the monthly engine's table contains. *)
From Coq Require Import Reals ZArith List Lia.
From Verif Require Import Base Num Xr Text M_Params M_Map M_Monthly M_UserModel S_Calendar S_Schedule S_Physical S_Results S_Monthly
  E_SmallOffice E_Decimal E_OfficeFile E_Monthly L_Monthly2 L_Monthly3 L_Monthly4 L_Monthly5 L_Monthly6.
Import ListNotations.
Open Scope R_scope.

(** C18: twelve rows of thirteen end uses whenever there is a table; there is one exactly for these
    inputs, and otherwise the behaviour is undefined (never an exception).  For every number type. *)
Theorem C18_monthly_shape : forall T (N : Num T) (p : params_t T) (w : mweather T) rows,
  simulateMonthly p w = Ok rows -> table_shape 12 rows.
Proof. exact @monthly_shape. Qed.
Print Assumptions C18_monthly_shape.
Theorem C18_monthly_defined : forall T (N : Num T) (p : params_t T) (w : mweather T),
  (exists rows, simulateMonthly p w = Ok rows) <->
  nine_surfaces (pa_structure p) /\ full_tables w /\ sun_every_month w /\ shading_coded (pa_structure p) /\ bem_castable p.
Proof. exact @C18_monthly_defined_l. Qed.
Print Assumptions C18_monthly_defined.
Theorem C18_monthly_else : forall T (N : Num T) (p : params_t T) (w : mweather T),
  (exists rows, simulateMonthly p w = Ok rows) \/ simulateMonthly p w = UB.
Proof. exact @simulateMonthly_ub. Qed.
Print Assumptions C18_monthly_else.
Example C18_monthly_case : exists rows, simulateMonthly (map_params Fin monthlyOffice) mildYear = Ok rows.
Proof. apply office_defined; [reflexivity|apply zn_R]. Qed.

(** C24.  Every building: the monthly values of interior lighting are one annual value times twelve
    fractions, each within 1e-15 of days / 365; they sum to 1 + 2e-16. *)
Theorem C24_split : forall p w rows, 0 < st_floorArea (pa_structure p) -> simulateMonthly (map_params Fin p) w = Ok rows ->
  exists annual fr, length fr = 12%nat /\ Rsum fr = 1 + 2 / 10 ^ 16 /\
    (forall m, (m < 12)%nat -> exists f, nth_error fr m = Some f /\ Rabs (f - IZR (nth m days_in_month 0%Z) / 365) <= 1 / 10 ^ 15) /\
    is_series elec_int_lights rows (map (fun f => Fin (annual * f)) fr).
Proof. exact C24_split_l. Qed.
Print Assumptions C24_split.
(** Opening times that do not pass midnight and meet the daylight hours: the three kinds of hours
    are not negative, make up the 8760 hours, and give the annual value. *)
Theorem C24_hours_partial : forall p w rows, 0 < st_floorArea (pa_structure p) -> day_schedule p -> simulateMonthly (map_params Fin p) w = Ok rows ->
  let tD := daylit_hours p * open_days p in let tN := (open_hours p - daylit_hours p) * open_days p in let tU := 8760 - open_hours p * open_days p in
  0 <= tD /\ 0 <= tN /\ 0 <= tU /\ tD + tN + tU = 8760 /\
  exists fr, length fr = 12%nat /\ Rsum fr = 1 + 2 / 10 ^ 16 /\
    (forall m, (m < 12)%nat -> exists f, nth_error fr m = Some f /\ Rabs (f - IZR (nth m days_in_month 0%Z) / 365) <= 1 / 10 ^ 15) /\
    is_series elec_int_lights rows (map (fun f => Fin (light_year p tD tN tU * f)) fr).
Proof. exact C24_hours_l. Qed.
Print Assumptions C24_hours_partial.
Theorem C24_nonneg_partial : forall p w rows, 0 < st_floorArea (pa_structure p) -> day_schedule p -> light_nonneg p ->
  simulateMonthly (map_params Fin p) w = Ok rows ->
  forall row x, In row rows -> nth_error row elec_int_lights = Some x -> exists r, x = Fin r /\ 0 <= r.
Proof. exact C24_nonneg_l. Qed.
Print Assumptions C24_nonneg_partial.
(** Full property: not negative for every building.  False for one that opens at 20 and closes at 23:
    in every month its interior lighting is negative. *)
Theorem C24_refuted : exists p w rows, light_nonneg p /\ 0 < st_floorArea (pa_structure p) /\ whole_schedule (pa_population p) 20 23 0 6 /\
  simulateMonthly (map_params Fin p) w = Ok rows /\ forall row, In row rows -> exists r, nth_error row elec_int_lights = Some (Fin r) /\ r < 0.
Proof. exact C24_refuted_l. Qed.
Print Assumptions C24_refuted.
Example C24_case : 0 < st_floorArea (pa_structure (@monthlyOffice R _)) /\ day_schedule monthlyOffice /\ light_nonneg monthlyOffice.
Proof. exact office_lights. Qed.

(** C25.  With positive efficiencies and a demand that is not negative, the year's demand divided once
    by each efficiency is charged by days to one carrier, the other one being zero.  (The code has no
    input for a solar contribution: it subtracts zero.) *)
Theorem C25_conserved : forall p w rows, 0 < st_floorArea (pa_structure p) ->
  0 < ht_hotWaterDistributionEfficiency (pa_heating p) -> 0 < ht_hotWaterSystemEfficiency (pa_heating p) ->
  0 <= water_year p -> simulateMonthly (map_params Fin p) w = Ok rows ->
  exists v, length v = 12%nat /\ all_nonneg v /\ Rsum v = water_year p /\
    (forall m, (m < 12)%nat -> nth_error v m = Some (water_year p * (IZR (nth m days_in_month 0%Z) / 365))) /\
    (ht_hotWaterEnergyType (pa_heating p) = 1 -> is_series elec_dhw rows (map Fin v) /\ is_series gas_dhw rows (repeat (Fin 0) 12)) /\
    (ht_hotWaterEnergyType (pa_heating p) <> 1 -> is_series gas_dhw rows (map Fin v) /\ is_series elec_dhw rows (repeat (Fin 0) 12)).
Proof. exact C25_l. Qed.
Print Assumptions C25_conserved.
(** Whatever the demand: never negative. *)
Theorem C25_nonneg : forall p w rows, 0 < st_floorArea (pa_structure p) ->
  0 < ht_hotWaterDistributionEfficiency (pa_heating p) -> 0 < ht_hotWaterSystemEfficiency (pa_heating p) ->
  simulateMonthly (map_params Fin p) w = Ok rows ->
  forall row k x, In row rows -> k = elec_dhw \/ k = gas_dhw -> nth_error row k = Some x -> exists r, x = Fin r /\ 0 <= r.
Proof. exact C25_nonneg_l. Qed.
Print Assumptions C25_nonneg.
Example C25_case : 0 < st_floorArea (pa_structure (@monthlyOffice R _)) /\ 0 < ht_hotWaterDistributionEfficiency (pa_heating (@monthlyOffice R _)) /\
  0 < ht_hotWaterSystemEfficiency (pa_heating (@monthlyOffice R _)) /\ 0 <= water_year monthlyOffice /\ 0 < water_year (hotWater 1000).
Proof. exact office_water. Qed.

(** C26, false as stated: with complete inputs the engine is defined exactly for the codes 1, 2 and 3. *)
Theorem C26_codes_partial : forall (p : params_t xr) w, nine_surfaces (pa_structure p) -> full_tables w -> sun_every_month w -> bem_castable p ->
  (shading_coded (pa_structure p) -> exists rows, simulateMonthly p w = Ok rows) /\ (~ shading_coded (pa_structure p) -> simulateMonthly p w = UB).
Proof. exact C26_l. Qed.
Print Assumptions C26_codes_partial.
(** The example building file of the repository is loaded without an error and holds the code 0. *)
Theorem C26_refuted : exists (file : text) (u : building_model xr), loadBuilding decimal_reader (Some file) freshOffice = Ok u /\
  forall w, simulateMonthly (bm_params u) w = UB.
Proof. exact C26_refuted_l. Qed.
Print Assumptions C26_refuted.
Example C26_case : nine_surfaces (pa_structure (map_params Fin monthlyOffice)) /\ full_tables (@mildYear xr _) /\ sun_every_month (@mildYear xr _) /\
  shading_coded (pa_structure (map_params Fin monthlyOffice)) /\ bem_castable (map_params Fin monthlyOffice).
Proof. apply C18_monthly_defined_l. exact C18_monthly_case. Qed.

(** C28.  When every month has an hour with radiation (otherwise there is no table, C18), exterior
    lighting is its power times the hours of the month outside the span from the first to the last
    hour with radiation; the span is between 1 and 24 hours. *)
Theorem C28_span_partial : forall p w rows, 0 < st_floorArea (pa_structure p) -> simulateMonthly (map_params Fin p) w = Ok rows ->
  exists v, length v = 12%nat /\ is_series elec_ext_lights rows (map Fin v) /\
    forall m row x, nth_error (mw_mhEgh w) m = Some row -> nth_error v m = Some x ->
      exists i j, sun_span row i j /\ (i <= j < 24)%nat /\
        x = li_exteriorEnergy (pa_lighting p) / 1000 * (month_hours m * (1 - INR (j - i + 1) / 24)) / st_floorArea (pa_structure p).
Proof. exact C28_l. Qed.
Print Assumptions C28_span_partial.
(** A month in which the sun never rises: undefined for every building. *)
Theorem C28_refuted : exists w, full_tables w /\ nth_error (mw_mhEgh w) 0 = Some (repeat (Fin 0) 24) /\ forall p, simulateMonthly p w = UB.
Proof. exact C28_refuted_l. Qed.
Print Assumptions C28_refuted.
Example C28_case : sun_span (nth 0 (mw_mhEgh mildYear) []) 7 16.
Proof. exact mild_span. Qed.
