(** C113: the monthly needs of a building and of a draughtier one. *)
From Coq Require Import Reals ZArith List.
From Verif Require Import Base Num Xr M_Params M_Monthly M_Map S_Physical S_Results S_MonthlySound S_MonthlyHeat S_MonthlyAir E_House L_MonthlyAir L_MonthlyAir2.
Open Scope R_scope.

(** More leakage and less heat recovery never lower the heating need of a month with losses and without negative net
    gains, provided that the tighter building leaks at all. *)
Theorem C113_heating_partial : forall (p : params_t R) n e w m m' i a b, let q := with_air p n e in
  sound p -> vent_nonneg p -> 0 <= envelope_UA (pa_structure p) -> 0 < utilisation_exponent p -> 0 < st_infiltrationRate (pa_structure p) -> draughtier p n e ->
  monthlyAll (map_params Fin p) (fin_weather w) = Ok m -> monthlyAll (map_params Fin q) (fin_weather w) = Ok m' -> (i < 12)%nat ->
  (forall t tc te hve hvc sol phi, month_data p w m i t tc te hve hvc sol phi -> 0 < month_loss (envelope_UA (pa_structure p)) (st_floorArea (pa_structure p)) hve t te i /\ 0 <= month_gain phi sol i) ->
  nth_error (ne_ht (mr_needs m)) i = Some (Fin a) -> nth_error (ne_ht (mr_needs m')) i = Some (Fin b) -> a <= b.
Proof. exact C113_heating_l. Qed.
Print Assumptions C113_heating_partial.

(** Nor do they raise the cooling need of a month colder than the cooling set-point and with gains. *)
Theorem C113_cooling_partial : forall (p : params_t R) n e w m m' i a b, let q := with_air p n e in
  sound p -> vent_nonneg p -> 0 <= envelope_UA (pa_structure p) -> 0 < utilisation_exponent p -> 0 < st_infiltrationRate (pa_structure p) -> draughtier p n e ->
  monthlyAll (map_params Fin p) (fin_weather w) = Ok m -> monthlyAll (map_params Fin q) (fin_weather w) = Ok m' -> (i < 12)%nat ->
  (forall t tc te hve hvc sol phi, month_data p w m i t tc te hve hvc sol phi -> 0 < month_loss (envelope_UA (pa_structure p)) (st_floorArea (pa_structure p)) hvc tc te i /\ 0 < month_gain phi sol i) ->
  nth_error (ne_cl (mr_needs m)) i = Some (Fin a) -> nth_error (ne_cl (mr_needs m')) i = Some (Fin b) -> b <= a.
Proof. exact C113_cooling_l. Qed.
Print Assumptions C113_cooling_partial.

(** The house with infiltration rates 1 and 3, in a year of 14 degrees. *)
Example C113_case : let p := house 2 0 0 0 in let q := with_air p 3 0 in let w := steadyYear 14 in
  sound p /\ vent_nonneg p /\ 0 <= envelope_UA (pa_structure p) /\ 0 < utilisation_exponent p /\ 0 < st_infiltrationRate (pa_structure p) /\ draughtier p 3 0 /\
  exists m m', monthlyAll (map_params Fin p) (fin_weather w) = Ok m /\ monthlyAll (map_params Fin q) (fin_weather w) = Ok m' /\
  forall i, (i < 12)%nat ->
  (forall t tc te hve hvc sol phi, month_data p w m i t tc te hve hvc sol phi ->
     0 < month_loss (envelope_UA (pa_structure p)) (st_floorArea (pa_structure p)) hve t te i /\ 0 < month_loss (envelope_UA (pa_structure p)) (st_floorArea (pa_structure p)) hvc tc te i /\ 0 < month_gain phi sol i) /\
  exists a b ac bc, nth_error (ne_ht (mr_needs m)) i = Some (Fin a) /\ nth_error (ne_ht (mr_needs m')) i = Some (Fin b) /\
    nth_error (ne_cl (mr_needs m)) i = Some (Fin ac) /\ nth_error (ne_cl (mr_needs m')) i = Some (Fin bc).
Proof. exact C113_case_l. Qed.

(** False for a building without leakage: it needs more than a million MJ in every month, the same house with rate 1 at
    most 6000. *)
Theorem C113_refuted : exists p n w m m', let q := with_air p n 0 in
  sound p /\ vent_nonneg p /\ 0 <= envelope_UA (pa_structure p) /\ 0 < utilisation_exponent p /\ draughtier p n 0 /\ 0 < n /\ st_infiltrationRate (pa_structure p) = 0 /\
  monthlyAll (map_params Fin p) (fin_weather w) = Ok m /\ monthlyAll (map_params Fin q) (fin_weather w) = Ok m' /\
  forall i, (i < 12)%nat ->
  (forall t tc te hve hvc sol phi, month_data p w m i t tc te hve hvc sol phi -> 0 < month_loss (envelope_UA (pa_structure p)) (st_floorArea (pa_structure p)) hve t te i /\ 0 < month_gain phi sol i) /\
  exists a b, nth_error (ne_ht (mr_needs m)) i = Some (Fin a) /\ nth_error (ne_ht (mr_needs m')) i = Some (Fin b) /\ b <= 6000 /\ 1000000 <= a.
Proof. exact C113_refuted_l. Qed.
Print Assumptions C113_refuted.
