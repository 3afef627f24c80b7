(** C114: the monthly needs of a building and of the same building catching more sun. *)
From Coq Require Import Reals ZArith List.
From Verif Require Import Base Num Xr M_Params M_Monthly M_Map S_Physical S_Results S_MonthlySound S_MonthlyHeat S_MonthlyCompare S_MonthlyBalance S_MonthlySun E_House L_MonthlySun L_MonthlySun2.
Open Scope R_scope.

(** Darker walls, clearer panes and brighter skies never lower the sun caught in a month. *)
Theorem C114_more : forall (p : params_t R) ab sh sc w w' i,
  takes_sun (pa_structure p) -> takes_more p ab sh sc -> (i < 12)%nat -> lit_month w i -> no_darker w w' i ->
  solar_gain (pa_structure p) w i <= solar_gain (pa_structure (with_surfaces p ab sh sc)) w' i.
Proof. exact C114_more_l. Qed.
Print Assumptions C114_more.

(** Catching more sun never raises the heating need of a month with losses and without negative net gains, in a building
    whose heating set-point is not set back. *)
Theorem C114_heating_partial : forall (p : params_t R) ab sh sc w w' m m' i z a b, let q := with_surfaces p ab sh sc in
  sound p -> sound q -> ntrunc (bu_bem (pa_building p)) = Some z -> no_heat_setback p z -> 0 < utilisation_exponent p -> same_air w w' ->
  monthlyAll (map_params Fin p) (fin_weather w) = Ok m -> monthlyAll (map_params Fin q) (fin_weather w') = Ok m' -> (i < 12)%nat ->
  solar_gain (pa_structure p) w i <= solar_gain (pa_structure q) w' i ->
  (forall t tc te hve hvc sol phi, month_data p w m i t tc te hve hvc sol phi -> 0 < month_loss (envelope_UA (pa_structure p)) (st_floorArea (pa_structure p)) hve t te i /\ 0 <= month_gain phi sol i) ->
  nth_error (ne_ht (mr_needs m)) i = Some (Fin a) -> nth_error (ne_ht (mr_needs m')) i = Some (Fin b) -> b <= a.
Proof. exact C114_heating_l. Qed.
Print Assumptions C114_heating_partial.

(** Nor does it lower the cooling need of a month with gains, in a building whose cooling set-point is not set back. *)
Theorem C114_cooling_partial : forall (p : params_t R) ab sh sc w w' m m' i z a b, let q := with_surfaces p ab sh sc in
  sound p -> sound q -> ntrunc (bu_bem (pa_building p)) = Some z -> no_cool_setback p z -> 0 < utilisation_exponent p -> same_air w w' ->
  monthlyAll (map_params Fin p) (fin_weather w) = Ok m -> monthlyAll (map_params Fin q) (fin_weather w') = Ok m' -> (i < 12)%nat ->
  solar_gain (pa_structure p) w i <= solar_gain (pa_structure q) w' i ->
  (forall t tc te hve hvc sol phi, month_data p w m i t tc te hve hvc sol phi -> 0 < month_gain phi sol i) ->
  nth_error (ne_cl (mr_needs m)) i = Some (Fin a) -> nth_error (ne_cl (mr_needs m')) i = Some (Fin b) -> a <= b.
Proof. exact C114_cooling_l. Qed.
Print Assumptions C114_cooling_partial.

(** The house with white and with black walls, the latter in a brighter year. *)
Example C114_case : let p := house 2 0 0 0 in let q := black_house 2 0 in let w := steadyYear 14 in let w' := with_sun w 150 in
  sound p /\ sound q /\ ntrunc (bu_bem (pa_building p)) = Some 1%Z /\ no_heat_setback p 1 /\ no_cool_setback p 1 /\ 0 < utilisation_exponent p /\ same_air w w' /\
  takes_sun (pa_structure p) /\ takes_more p (repeat 1 9) (repeat 0 9) (repeat 1 9) /\
  exists m m', monthlyAll (map_params Fin p) (fin_weather w) = Ok m /\ monthlyAll (map_params Fin q) (fin_weather w') = Ok m' /\
  forall i, (i < 12)%nat -> lit_month w i /\ no_darker w w' i /\
  (forall t tc te hve hvc sol phi, month_data p w m i t tc te hve hvc sol phi -> 0 < month_loss (envelope_UA (pa_structure p)) (st_floorArea (pa_structure p)) hve t te i /\ 0 < month_gain phi sol i) /\
  exists a b ac bc, nth_error (ne_ht (mr_needs m)) i = Some (Fin a) /\ nth_error (ne_ht (mr_needs m')) i = Some (Fin b) /\
    nth_error (ne_cl (mr_needs m)) i = Some (Fin ac) /\ nth_error (ne_cl (mr_needs m')) i = Some (Fin bc).
Proof. exact C114_case_l. Qed.

(** False where the radiation to the sky makes the net gains negative: white walls need no heating in any month, black
    walls more than 1000 MJ in each. *)
Theorem C114_refuted : exists p ab sh sc w m m', let q := with_surfaces p ab sh sc in
  sound p /\ sound q /\ ntrunc (bu_bem (pa_building p)) = Some 1%Z /\ no_heat_setback p 1 /\ 0 < utilisation_exponent p /\ takes_sun (pa_structure p) /\ takes_more p ab sh sc /\
  monthlyAll (map_params Fin p) (fin_weather w) = Ok m /\ monthlyAll (map_params Fin q) (fin_weather w) = Ok m' /\
  forall i, (i < 12)%nat -> lit_month w i /\
  exists a b, nth_error (ne_ht (mr_needs m)) i = Some (Fin a) /\ nth_error (ne_ht (mr_needs m')) i = Some (Fin b) /\ a < 0 /\ 1000 < b.
Proof. exact C114_refuted_l. Qed.
Print Assumptions C114_refuted.
