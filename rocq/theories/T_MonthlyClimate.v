(** C92: the monthly needs under other set-points and another outdoor temperature. *)
From Coq Require Import Reals ZArith List.
From Verif Require Import Base Num Xr M_Params M_Monthly M_Map S_Physical S_Results S_MonthlySound S_MonthlyHeat S_MonthlyCompare S_MonthlyClimate E_House L_MonthlyClimate L_MonthlyClimate2.
Open Scope R_scope.

(** A higher heating set-point and a colder month never lower the heating need of a month with losses and without
    negative net gains. *)
Theorem C92_heating : forall (p : params_t R) ho hu co cu w w' m m' i z a b, let q := set_points p ho hu co cu in
  sound p -> vent_nonneg p -> 0 <= envelope_UA (pa_structure p) -> ntrunc (bu_bem (pa_building p)) = Some z -> no_heat_setback p z -> no_heat_setback q z -> 0 < utilisation_exponent p ->
  monthlyAll (map_params Fin p) (fin_weather w) = Ok m -> monthlyAll (map_params Fin q) (fin_weather w') = Ok m' -> (i < 12)%nat ->
  same_sun_wind w w' -> no_warmer w w' i -> ht_tempOcc (pa_heating p) <= ho ->
  (forall t tc te hve hvc sol phi, month_data p w m i t tc te hve hvc sol phi -> 0 < month_loss (envelope_UA (pa_structure p)) (st_floorArea (pa_structure p)) hve t te i /\ 0 <= month_gain phi sol i) ->
  nth_error (ne_ht (mr_needs m)) i = Some (Fin a) -> nth_error (ne_ht (mr_needs m')) i = Some (Fin b) -> a <= b.
Proof. exact C92_heating_l. Qed.
Print Assumptions C92_heating.

(** A higher cooling set-point and a colder month never raise the cooling need of a month with gains. *)
Theorem C92_cooling : forall (p : params_t R) ho hu co cu w w' m m' i z a b, let q := set_points p ho hu co cu in
  sound p -> vent_nonneg p -> 0 <= envelope_UA (pa_structure p) -> ntrunc (bu_bem (pa_building p)) = Some z -> no_cool_setback p z -> no_cool_setback q z -> 0 < utilisation_exponent p ->
  monthlyAll (map_params Fin p) (fin_weather w) = Ok m -> monthlyAll (map_params Fin q) (fin_weather w') = Ok m' -> (i < 12)%nat ->
  same_sun_wind w w' -> no_warmer w w' i -> cl_tempOcc (pa_cooling p) <= co ->
  (forall t tc te hve hvc sol phi, month_data p w m i t tc te hve hvc sol phi -> 0 < month_gain phi sol i) ->
  nth_error (ne_cl (mr_needs m)) i = Some (Fin a) -> nth_error (ne_cl (mr_needs m')) i = Some (Fin b) -> b <= a.
Proof. exact C92_cooling_l. Qed.
Print Assumptions C92_cooling.

(** The house with set-points 24 and 28 in a year of 14 degrees, and with 25 and 29 in a year of 12 degrees. *)
Example C92_case : let p := house 2 0 0 0 in let q := set_points p 25 25 29 29 in let w := steadyYear 14 in let w' := steadyYear 12 in
  sound p /\ vent_nonneg p /\ 0 <= envelope_UA (pa_structure p) /\ ntrunc (bu_bem (pa_building p)) = Some 1%Z /\ no_heat_setback p 1 /\ no_heat_setback q 1 /\ no_cool_setback p 1 /\ no_cool_setback q 1 /\
  0 < utilisation_exponent p /\ same_sun_wind w w' /\ ht_tempOcc (pa_heating p) <= 25 /\ cl_tempOcc (pa_cooling p) <= 29 /\
  exists m m', monthlyAll (map_params Fin p) (fin_weather w) = Ok m /\ monthlyAll (map_params Fin q) (fin_weather w') = Ok m' /\
  forall i, (i < 12)%nat -> no_warmer w w' i /\
  (forall t tc te hve hvc sol phi, month_data p w m i t tc te hve hvc sol phi -> 0 < month_loss (envelope_UA (pa_structure p)) (st_floorArea (pa_structure p)) hve t te i /\ 0 < month_gain phi sol i) /\
  exists a b ac bc, nth_error (ne_ht (mr_needs m)) i = Some (Fin a) /\ nth_error (ne_ht (mr_needs m')) i = Some (Fin b) /\
    nth_error (ne_cl (mr_needs m)) i = Some (Fin ac) /\ nth_error (ne_cl (mr_needs m')) i = Some (Fin bc).
Proof. exact C92_case_l. Qed.
