(** C66: the fans of a month, for a building whose supply air is warmer than the heated and colder than the cooled room. *)
From Coq Require Import Reals Lra ZArith List.
From Verif Require Import Base Num Xr M_Params M_Hourly M_Monthly M_Map S_Calendar S_Schedule S_Results S_Physical S_Monthly S_MonthlySound S_MonthlyPlant S_MonthlyBalance S_MonthlyFan E_House L_MonthlyFan.
Import ListNotations.
Open Scope R_scope.

(** For such a building no divisor of the fan column vanishes: every month with finite needs has the energy of the property. *)
Theorem C66_supply_partial : forall (p : params_t R) w m rows i qh qc, sound p -> supply_air p -> monthlyAll (map_params Fin p) (fin_weather w) = Ok m -> simulateMonthly (map_params Fin p) (fin_weather w) = Ok rows -> (i < 12)%nat ->
  ne_ht (mr_needs m) = map Fin qh -> ne_cl (mr_needs m) = map Fin qc ->
  exists row h c t tc, nth_error rows i = Some row /\ nth_error qh i = Some h /\ nth_error qc i = Some c /\
    nth_error (te_h (mr_temps m)) i = Some (Fin t) /\ nth_error (te_c (mr_temps m)) i = Some (Fin tc) /\
    t < ht_tempOcc (pa_heating p) + ht_dT_supp (pa_heating p) /\ cl_tempOcc (pa_cooling p) - cl_dT_supp (pa_cooling p) < tc /\
    nth_error row elec_fans = Some (Fin (fan_kWh p (fan_air p t tc h c i Rdblmin))).
Proof. exact C66_supply_l. Qed.
Print Assumptions C66_supply_partial.

(** A month whose heating need is not a number has no fan energy, not even that of its ventilation. *)
Theorem C66_not_a_number : forall (p : params_t R) w m rows i, sound p -> supply_air p -> monthlyAll (map_params Fin p) (fin_weather w) = Ok m -> simulateMonthly (map_params Fin p) (fin_weather w) = Ok rows -> (i < 12)%nat ->
  nth_error (ne_ht (mr_needs m)) i = Some NaN -> exists row, nth_error rows i = Some row /\ nth_error row elec_fans = Some NaN.
Proof. exact C66_nan_l. Qed.
Print Assumptions C66_not_a_number.

(** C66 is false as stated: a sound building whose January gains equal its losses. *)
Theorem C66_refuted : exists (p : params_t R) w m rows row, sound p /\ supply_air p /\ monthlyAll (map_params Fin p) (fin_weather w) = Ok m /\ simulateMonthly (map_params Fin p) (fin_weather w) = Ok rows /\
  nth_error (ne_ht (mr_needs m)) 0 = Some NaN /\ nth_error rows 0 = Some row /\ nth_error row elec_fans = Some NaN.
Proof. exact C66_refuted_l. Qed.
Print Assumptions C66_refuted.

(** A house with appliances, 30 degrees outdoors, meets the hypotheses of [C66_supply_partial]; the building of [C66_refuted] those of [C66_not_a_number]. *)
Example C66_supply_case : let p := house 10 0 1 0 in sound p /\ supply_air p /\ exists m rows qh qc, monthlyAll (map_params Fin p) (fin_weather (steadyYear 30)) = Ok m /\ simulateMonthly (map_params Fin p) (fin_weather (steadyYear 30)) = Ok rows /\
  ne_ht (mr_needs m) = map Fin qh /\ ne_cl (mr_needs m) = map Fin qc.
Proof. exact supply_case. Qed.
