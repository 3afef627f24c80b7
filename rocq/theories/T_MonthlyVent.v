(** C33, C34, C59: ventilation of the monthly engine. *)
From Coq Require Import Reals Lra ZArith List.
From Verif Require Import Base Num Xr M_Params M_Hourly M_Monthly M_Map S_Calendar S_Schedule S_Results S_Physical S_Monthly S_MonthlySound S_MonthlyHeat L_MonthlyNaN L_MonthlyVent L_MonthlyCase E_Monthly.
Import ListNotations.
Open Scope R_scope.

(** C33, false as stated: with the same supply rate the hourly engine moves 12.96 times the air of the monthly one. *)
Theorem C33_factor : forall (p : params_t R) tbl h d sc hs he ds de, st_floorArea (pa_structure p) <> 0 -> whole_schedule (pa_population p) hs he ds de -> clock_schedule hs he ds de -> (hs <= h <= he)%Z -> (0 <= d < 7)%Z ->
  populateSchedules (map_params Fin p) = Ok tbl -> sched_at tbl h d = Ok sc ->
  exists hourly monthly, ventFlow (map_params Fin p) sc = Fin hourly /\ supplyPerArea (map_params Fin p) = Fin monthly /\ hourly = 1296 / 100 * monthly /\
    monthly = ve_supplyRate (pa_ventilation p) / st_floorArea (pa_structure p) / (36 / 10).
Proof. exact C33_l. Qed.
Print Assumptions C33_factor.

(** The small office. *)
Theorem C33_refuted : exists p tbl sc hourly monthly, 0 < st_floorArea (pa_structure p) /\ whole_schedule (pa_population p) 8 17 1 5 /\
  populateSchedules (map_params Fin p) = Ok tbl /\ sched_at tbl 12 3 = Ok sc /\ ventFlow (map_params Fin p) sc = Fin hourly /\ supplyPerArea (map_params Fin p) = Fin monthly /\ hourly <> monthly.
Proof. exact C33_refuted_l. Qed.
Print Assumptions C33_refuted.

(** C34: no ventilation heat transfer coefficient is negative. *)
Theorem C34_coefficient : forall (p : params_t R) w m, sound p -> vent_nonneg p -> monthlyAll (map_params Fin p) (fin_weather w) = Ok m ->
  forall x, In x (mr_Hve_ht m) \/ In x (mr_Hve_cl m) -> exists h, x = Fin h /\ 0 <= h.
Proof. exact C34_l. Qed.
Print Assumptions C34_coefficient.

(** Nor any of the flows it is made of. *)
Theorem C34_flows : forall (p : params_t R) stackT dbt wind, sound p -> vent_nonneg p -> let q := map_params Fin p in
  exists s f i k, stackFlow q (Fin dbt) (Fin stackT) = Fin s /\ 0 <= s /\ windFlow q (Fin wind) = Fin f /\ 0 <= f /\ infiltration q (Fin s) (Fin f) = Fin i /\ 0 <= i /\
  mechanicalFlow q (oc_wk_day (scheduleAndOccupancy (pa_population q))) = Fin k /\ 0 <= k.
Proof. exact C34_flows_l. Qed.
Print Assumptions C34_flows.

(** In a naturally ventilated building neither ventilation nor needs depend on the supply rate. *)
Theorem C34_natural : forall (p : params_t R) x w m m', sound p -> ve_type (pa_ventilation p) = 3 ->
  monthlyAll (map_params Fin p) (fin_weather w) = Ok m -> monthlyAll (map_params Fin (set_supply p x)) (fin_weather w) = Ok m' ->
  mr_Hve_ht m' = mr_Hve_ht m /\ mr_Hve_cl m' = mr_Hve_cl m /\ ne_ht (mr_needs m') = ne_ht (mr_needs m) /\ ne_cl (mr_needs m') = ne_cl (mr_needs m).
Proof. exact C34_natural_l. Qed.
Print Assumptions C34_natural.

(** C59, false as stated: with infiltration rate 0 every coefficient is at least that of a flow of the largest double. *)
Theorem C59_airtight : forall (p : params_t R) w m, sound p -> vent_nonneg p -> st_infiltrationRate (pa_structure p) = 0 -> monthlyAll (map_params Fin p) (fin_weather w) = Ok m ->
  forall x, In x (mr_Hve_ht m) \/ In x (mr_Hve_cl m) -> exists h, x = Fin h /\ Rdblmax * (ph_rhoCpAir (pa_phys p) * 1000000) / 3600 <= h.
Proof. exact C59_l. Qed.
Print Assumptions C59_airtight.

Example C34_case : sound (scheduleOffice 8 17 1 5) /\ vent_nonneg (scheduleOffice 8 17 1 5) /\
  exists m, monthlyAll (map_params Fin (scheduleOffice 8 17 1 5)) (fin_weather mildYear) = Ok m.
Proof. destruct office_case as (A & B & _ & _ & _ & _ & C). auto. Qed.
