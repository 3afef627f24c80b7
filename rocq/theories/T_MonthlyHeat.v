(** C29, C32, C58: heat balance and indoor temperatures of the monthly engine. *)
From Coq Require Import Reals Lra ZArith List.
From Verif Require Import Base Num Xr M_Params M_Hourly M_Monthly M_Map S_Calendar S_Schedule S_Results S_Physical S_Monthly S_MonthlySound S_MonthlyHeat S_MonthlyBalance L_MonthlyNaN L_MonthlyNeed L_MonthlyTemp L_MonthlyCase L_MonthlyCool E_Monthly.
Import ListNotations.
Open Scope R_scope.

(** C29: whatever indoor temperature, ventilation and gains the engine has found for the month, the heating need is losses minus utilised gains; it lies between the excess of losses and the losses, up to the smallest double.  When gains equal losses plus that number it is not a number. *)
Theorem C29_heating_partial : forall (p : params_t R) w m i, sound p -> 0 < utilisation_exponent p -> monthlyAll (map_params Fin p) (fin_weather w) = Ok m -> (i < 12)%nat ->
  exists t tc te hve hvc sol phi, month_data p w m i t tc te hve hvc sol phi /\
  let L := month_loss (envelope_UA (pa_structure p)) (st_floorArea (pa_structure p)) hve t te i in let G := month_gain phi sol i in
  (0 < L -> 0 < G -> G <> L + Rdblmin -> exists eta, 0 < eta < 1 /\ eta = utilisation (utilisation_exponent p) (G / (L + Rdblmin)) /\
     nth_error (ne_ht (mr_needs m)) i = Some (Fin (L - eta * G)) /\ Rmax 0 (L - G) <= L - eta * G + Rdblmin /\ L - eta * G <= L) /\
  (0 < L -> G = L + Rdblmin -> nth_error (ne_ht (mr_needs m)) i = Some NaN).
Proof. exact C29_heating_l. Qed.
Print Assumptions C29_heating_partial.

(** The same for cooling. *)
Theorem C29_cooling_partial : forall (p : params_t R) w m i, sound p -> 0 < utilisation_exponent p -> monthlyAll (map_params Fin p) (fin_weather w) = Ok m -> (i < 12)%nat ->
  exists t tc te hve hvc sol phi, month_data p w m i t tc te hve hvc sol phi /\
  let L := month_loss (envelope_UA (pa_structure p)) (st_floorArea (pa_structure p)) hvc tc te i in let G := month_gain phi sol i in
  (0 < L -> 0 < G -> L <> G + Rdblmin -> exists eta, 0 < eta < 1 /\ eta = utilisation (utilisation_exponent p) (L / (G + Rdblmin)) /\
     nth_error (ne_cl (mr_needs m)) i = Some (Fin (G - eta * L)) /\ Rmax 0 (G - L) <= G - eta * L + Rdblmin /\ G - eta * L <= G) /\
  (L <= 0 -> 0 < G -> nth_error (ne_cl (mr_needs m)) i = Some (Fin (G - L))) /\
  (0 < G -> L = G + Rdblmin -> nth_error (ne_cl (mr_needs m)) i = Some NaN).
Proof. exact C29_cooling_l. Qed.
Print Assumptions C29_cooling_partial.

Example C29_case : sound (scheduleOffice 8 17 1 5) /\ 0 < utilisation_exponent (scheduleOffice 8 17 1 5) /\
  exists m, monthlyAll (map_params Fin (scheduleOffice 8 17 1 5)) (fin_weather mildYear) = Ok m.
Proof. destruct office_case as (A & _ & B & _ & _ & _ & C). auto. Qed.

(** C32: during an unoccupied period the temperature moves towards the equilibrium and does not pass it. *)
Theorem C32_decay : forall (tau s t te dt : R), 0 < tau -> 0 <= t -> exists r, decayEnd (Fin tau) (Fin s) (mkPeriod (Fin t) (Fin te) (Fin dt)) = Fin r /\
  (te + dt <= s -> te + dt <= r <= s) /\ (s <= te + dt -> s <= r <= te + dt).
Proof. exact C32_decay_l. Qed.
Print Assumptions C32_decay.

(** The mean temperature of a month used for heating lies between set-back and set-point. *)
Theorem C32_heating : forall (p : params_t R) w m z, sound p -> ntrunc (bu_bem (pa_building p)) = Some z -> monthlyAll (map_params Fin p) (fin_weather w) = Ok m ->
  let c := ht_tempOcc (pa_heating p) - bem_relief z in
  forall x, In x (te_h (mr_temps m)) -> exists t, x = Fin t /\ t <= c /\ (1 <= week_days (pa_population p) -> Rmin c (ht_tempUnocc (pa_heating p)) <= t) /\ (ht_T_ctrl_flag (pa_heating p) <> 1 -> t = c).
Proof. exact C32_heating_l. Qed.
Print Assumptions C32_heating.

(** The one used for cooling never exceeds the cooling set-point. *)
Theorem C32_cooling : forall (p : params_t R) w m z, sound p -> ntrunc (bu_bem (pa_building p)) = Some z -> monthlyAll (map_params Fin p) (fin_weather w) = Ok m ->
  let c := cl_tempOcc (pa_cooling p) + bem_relief z in
  forall x, In x (te_c (mr_temps m)) -> exists t, x = Fin t /\ t <= c /\ (1 <= week_days (pa_population p) -> Rmin c (cl_tempUnocc (pa_cooling p)) <= t) /\ (cl_T_ctrl_flag (pa_cooling p) <> 1 -> t = c).
Proof. exact C32_cooling_l. Qed.
Print Assumptions C32_cooling.

(** More energy management never raises the heating temperature. *)
Theorem C32_management : forall (p : params_t R) w m m' x x' z z', sound p -> 1 <= week_days (pa_population p) -> ntrunc x = Some z -> ntrunc x' = Some z' -> (1 <= z <= z')%Z -> (z' <= 3)%Z ->
  monthlyAll (map_params Fin (set_bem p x)) (fin_weather w) = Ok m -> monthlyAll (map_params Fin (set_bem p x')) (fin_weather w) = Ok m' ->
  forall i t t', nth_error (te_h (mr_temps m)) i = Some (Fin t) -> nth_error (te_h (mr_temps m')) i = Some (Fin t') -> t' <= t.
Proof. exact C32_bem_l. Qed.
Print Assumptions C32_management.

(** Nor lowers the cooling temperature, if the weekend is at most five times the working hours of the week, or there is no set-back, or the unoccupied cooling set-point is not below the occupied one. *)
Theorem C32_management_cooling_partial : forall (p : params_t R) w m m' x x' z z', sound p -> 1 <= week_days (pa_population p) -> ntrunc x = Some z -> ntrunc x' = Some z' -> (1 <= z <= z')%Z -> (z' <= 3)%Z ->
  (let working := occupied_share (pa_population p) in let nights := (24 - day_length (pa_population p)) * (week_days (pa_population p) - 1) / 168 in 1 - working - nights <= 5 * working) \/
  cl_T_ctrl_flag (pa_cooling p) <> 1 \/ cl_tempOcc (pa_cooling p) + bem_relief z' <= cl_tempUnocc (pa_cooling p) ->
  monthlyAll (map_params Fin (set_bem p x)) (fin_weather w) = Ok m -> monthlyAll (map_params Fin (set_bem p x')) (fin_weather w) = Ok m' ->
  forall i t t', nth_error (te_c (mr_temps m)) i = Some (Fin t) -> nth_error (te_c (mr_temps m')) i = Some (Fin t') -> t <= t'.
Proof. exact C32_bem_cooling2_l. Qed.
Print Assumptions C32_management_cooling_partial.

(** A house open two hours a week, where better management lowers the cooling temperature: the first night starts at the heating set-point, which management lowers. *)
Theorem C32_management_refuted : exists p w m m' t t', sound p /\ 1 <= week_days (pa_population p) /\
  monthlyAll (map_params Fin (set_bem p 1)) (fin_weather w) = Ok m /\ monthlyAll (map_params Fin (set_bem p 2)) (fin_weather w) = Ok m' /\
  nth_error (te_c (mr_temps m)) 0 = Some (Fin t) /\ nth_error (te_c (mr_temps m')) 0 = Some (Fin t') /\ t' < t.
Proof. exact C32_bem_cooling_refuted_l. Qed.
Print Assumptions C32_management_refuted.

Example C32_weekend : let po := pa_population (scheduleOffice 8 17 1 5) in let working := occupied_share po in let nights := (24 - day_length po) * (week_days po - 1) / 168 in 1 - working - nights <= 5 * working.
Proof. exact office_weekend. Qed.

(** C58, false as stated: with a relaxed unoccupied cooling set-point the temperature of every month is the occupied one, as if there were no set-back. *)
Theorem C58_setback : forall (p : params_t R) w m z, sound p -> 1 <= week_days (pa_population p) -> ntrunc (bu_bem (pa_building p)) = Some z -> monthlyAll (map_params Fin p) (fin_weather w) = Ok m ->
  cl_tempOcc (pa_cooling p) + bem_relief z <= cl_tempUnocc (pa_cooling p) -> forall x, In x (te_c (mr_temps m)) -> x = Fin (cl_tempOcc (pa_cooling p) + bem_relief z).
Proof. exact C58_l. Qed.
Print Assumptions C58_setback.

(** The small office with set-backs of 30 and 40 degrees. *)
Theorem C58_refuted : exists p m m' w, cl_tempOcc (pa_cooling p) = 28 /\ cl_T_ctrl_flag (pa_cooling p) = 1 /\ sound p /\
  monthlyAll (map_params Fin (set_cool_setback p 30)) (fin_weather w) = Ok m /\ monthlyAll (map_params Fin (set_cool_setback p 40)) (fin_weather w) = Ok m' /\
  te_c (mr_temps m) = repeat (Fin 28) 12 /\ te_c (mr_temps m') = repeat (Fin 28) 12.
Proof. exact C58_refuted_l. Qed.
Print Assumptions C58_refuted.

Example C32_case : sound (scheduleOffice 8 17 1 5) /\ 1 <= week_days (pa_population (scheduleOffice 8 17 1 5)) /\
  ntrunc (bu_bem (pa_building (scheduleOffice 8 17 1 5))) = Some 1%Z /\
  cl_tempOcc (pa_cooling (scheduleOffice 8 17 1 5)) + bem_relief 1 <= cl_tempUnocc (pa_cooling (scheduleOffice 8 17 1 5)) /\
  exists m, monthlyAll (map_params Fin (scheduleOffice 8 17 1 5)) (fin_weather mildYear) = Ok m.
Proof. destruct office_case as (A & _ & _ & B). auto. Qed.
