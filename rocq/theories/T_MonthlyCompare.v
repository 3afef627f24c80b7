(** C91: the monthly needs of two buildings that differ in appliances, windows and heat capacity. *)
From Coq Require Import Reals ZArith List.
From Verif Require Import Base Num Xr M_Params M_Monthly M_Map S_Physical S_Results S_MonthlySound S_MonthlyHeat S_MonthlyCompare E_House L_MonthlyCompare L_MonthlyCompare2.
Open Scope R_scope.

(** In a month colder outside than the set-point, without net gains to the outside, fewer appliances, worse windows and
    a lighter interior never lower the heating need. *)
Theorem C91_heating_partial : forall (p : params_t R) x y us c w m m' i z a b, let q := varied p x y us c in
  sound p -> sound q -> ntrunc (bu_bem (pa_building p)) = Some z -> no_heat_setback p z -> leaner p x y us c -> all_nonneg (st_windowArea (pa_structure p)) ->
  0 < ht_tau_H0 (pa_heating p) -> 0 < utilisation_exponent q ->
  monthlyAll (map_params Fin p) (fin_weather w) = Ok m -> monthlyAll (map_params Fin q) (fin_weather w) = Ok m' -> (i < 12)%nat ->
  (forall te, nth_error (mw_mdbt w) i = Some te -> te < ht_tempOcc (pa_heating p) - bem_relief z) ->
  (forall t tc te hve hvc sol phi, month_data p w m i t tc te hve hvc sol phi -> 0 < month_loss (envelope_UA (pa_structure p)) (st_floorArea (pa_structure p)) hve t te i) ->
  (forall t tc te hve hvc sol phi, month_data q w m' i t tc te hve hvc sol phi -> 0 <= month_gain phi sol i) ->
  nth_error (ne_ht (mr_needs m)) i = Some (Fin a) -> nth_error (ne_ht (mr_needs m')) i = Some (Fin b) -> a <= b.
Proof. exact C91_heating_l. Qed.
Print Assumptions C91_heating_partial.

(** Fewer appliances and a heavier interior never raise the cooling need of a month with gains. *)
Theorem C91_cooling_partial : forall (p : params_t R) x y c w m m' i z a b, let q := varied p x y (st_windowU (pa_structure p)) c in
  sound p -> sound q -> ntrunc (bu_bem (pa_building p)) = Some z -> no_cool_setback p z ->
  x <= bu_elecApplianceOcc (pa_building p) -> y <= bu_elecApplianceUnocc (pa_building p) -> st_interiorHeatCapacity (pa_structure p) <= c ->
  0 < ht_tau_H0 (pa_heating p) -> 0 < utilisation_exponent p ->
  monthlyAll (map_params Fin p) (fin_weather w) = Ok m -> monthlyAll (map_params Fin q) (fin_weather w) = Ok m' -> (i < 12)%nat ->
  (forall t tc te hve hvc sol phi, month_data q w m' i t tc te hve hvc sol phi -> 0 < month_gain phi sol i) ->
  nth_error (ne_cl (mr_needs m)) i = Some (Fin a) -> nth_error (ne_cl (mr_needs m')) i = Some (Fin b) -> b <= a.
Proof. exact C91_cooling_l. Qed.
Print Assumptions C91_cooling_partial.

(** The house with 2 W/m2 and with 1 W/m2 of appliances meets the conditions of both in every month. *)
Example C91_case : let p := house 2 0 0 0 in let us := st_windowU (pa_structure p) in let c := st_interiorHeatCapacity (pa_structure p) in let q := varied p 1 1 us c in let w := steadyYear 14 in
  sound p /\ sound q /\ ntrunc (bu_bem (pa_building p)) = Some 1%Z /\ no_heat_setback p 1 /\ no_cool_setback p 1 /\ leaner p 1 1 us c /\ all_nonneg (st_windowArea (pa_structure p)) /\
  0 < ht_tau_H0 (pa_heating p) /\ 0 < utilisation_exponent p /\ 0 < utilisation_exponent q /\
  exists m m', monthlyAll (map_params Fin p) (fin_weather w) = Ok m /\ monthlyAll (map_params Fin q) (fin_weather w) = Ok m' /\
  forall i, (i < 12)%nat ->
  (forall te, nth_error (mw_mdbt w) i = Some te -> te < ht_tempOcc (pa_heating p) - bem_relief 1) /\
  (forall t tc te hve hvc sol phi, month_data p w m i t tc te hve hvc sol phi -> 0 < month_loss (envelope_UA (pa_structure p)) (st_floorArea (pa_structure p)) hve t te i) /\
  (forall t tc te hve hvc sol phi, month_data q w m' i t tc te hve hvc sol phi -> 0 < month_gain phi sol i) /\
  exists a b ac bc, nth_error (ne_ht (mr_needs m)) i = Some (Fin a) /\ nth_error (ne_ht (mr_needs m')) i = Some (Fin b) /\
    nth_error (ne_cl (mr_needs m)) i = Some (Fin ac) /\ nth_error (ne_cl (mr_needs m')) i = Some (Fin bc).
Proof. exact C91_case_l. Qed.

(** False without the condition on the gains: a house that loses more heat to the sky than the sun brings needs more than
    1000 MJ of heating in every month with its appliances, and less than none without them. *)
Theorem C91_refuted : exists p x us c w m m', let q := varied p x x us c in sound p /\ sound q /\ ntrunc (bu_bem (pa_building p)) = Some 1%Z /\ no_heat_setback p 1 /\ leaner p x x us c /\ 0 < utilisation_exponent q /\
  monthlyAll (map_params Fin p) (fin_weather w) = Ok m /\ monthlyAll (map_params Fin q) (fin_weather w) = Ok m' /\
  forall i, (i < 12)%nat -> exists a b, nth_error (ne_ht (mr_needs m)) i = Some (Fin a) /\ nth_error (ne_ht (mr_needs m')) i = Some (Fin b) /\ b < 0 /\ 1000 < a.
Proof. exact C91_refuted_l. Qed.
Print Assumptions C91_refuted.
