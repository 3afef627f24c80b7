(** C23, C27: internal and solar gains of the monthly engine. *)
From Coq Require Import Reals Lra ZArith List.
From Verif Require Import Base Num Xr M_Params M_Hourly M_Monthly M_Map S_Calendar S_Schedule S_Results S_Physical S_Monthly S_MonthlySound S_MonthlyHeat L_Monthly2 L_MonthlyNaN L_MonthlyGain L_MonthlyCase E_Monthly.
Import ListNotations.
Open Scope R_scope.

(** C23 for schedules that leave some unoccupied time in the week: every internal gain is finite, for any weather. *)
Theorem C23_gains_partial : forall (p : params_t R) w m, 0 < st_floorArea (pa_structure p) -> 0 < po_densityOcc (pa_population p) -> 0 < po_densityUnocc (pa_population p) ->
  day_length (pa_population p) * week_days (pa_population p) <> 168 -> monthlyAll (map_params Fin p) w = Ok m ->
  finite (ga_int (mr_gains m)) /\ finite (ga_plug (mr_gains m)) /\ finite (ga_illum (mr_gains m)) /\ finite (ga_unocc (mr_gains m)) /\
  finite (internalHeatGain (pa_structure (map_params Fin p)) (mr_gains m)).
Proof. exact C23_l. Qed.
Print Assumptions C23_gains_partial.

(** False when the working day has no hours or 24: the whole heating column is not a number. *)
Theorem C23_extreme : forall (p : params_t R) w rows, 0 < st_floorArea (pa_structure p) -> 0 < envelope_UA (pa_structure p) + ve_H_ve (pa_ventilation p) -> 0 < heat_capacity (pa_structure p) ->
  0 < ht_efficiency (pa_heating p) -> ht_DH_YesNo (pa_heating p) <> 1 -> ht_T_ctrl_flag (pa_heating p) = 1 ->
  day_length (pa_population p) = 0 \/ day_length (pa_population p) = 24 -> simulateMonthly (map_params Fin p) w = Ok rows ->
  forall row x, In row rows -> nth_error row (if Req_EM_T (ht_energyType (pa_heating p)) 1 then elec_heating else gas_heating) = Some x -> x = NaN.
Proof. exact C23_extreme_l. Qed.
Print Assumptions C23_extreme.

(** An office open all day, every day: the unoccupied gain is infinite as well. *)
Theorem C23_refuted : exists p w rows, whole_schedule (pa_population p) 0 24 0 6 /\ simulateMonthly (map_params Fin p) w = Ok rows /\
  (forall row x, In row rows -> nth_error row gas_heating = Some x -> x = NaN) /\
  exists m, monthlyAll (map_params Fin p) w = Ok m /\ ga_unocc (mr_gains m) = PInf.
Proof. exact C23_refuted_l. Qed.
Print Assumptions C23_refuted.

(** An office that never opens. *)
Theorem C23_never_refuted : exists p w rows, whole_schedule (pa_population p) 8 8 1 5 /\ simulateMonthly (map_params Fin p) w = Ok rows /\
  forall row x, In row rows -> nth_error row gas_heating = Some x -> x = NaN.
Proof. exact C23_never_l. Qed.
Print Assumptions C23_never_refuted.

(** An ordinary office meets the hypotheses of [C23_gains_partial]. *)
Example C23_case : 0 < st_floorArea (pa_structure (scheduleOffice 8 17 1 5)) /\ 0 < po_densityOcc (pa_population (scheduleOffice 8 17 1 5)) /\
  0 < po_densityUnocc (pa_population (scheduleOffice 8 17 1 5)) /\
  day_length (pa_population (scheduleOffice 8 17 1 5)) * week_days (pa_population (scheduleOffice 8 17 1 5)) <> 168 /\
  exists m, monthlyAll (map_params Fin (scheduleOffice 8 17 1 5)) (fin_weather mildYear) = Ok m.
Proof.
  destruct office_case as (S & _ & _ & _ & _ & _ & M). destruct week_8_17 as [H D]. repeat split; try apply S; try exact M.
  change (pa_population _) with (week_schedule 8 17 1 5). rewrite H, D. lra.
Qed.

(** C27: with radiation that is never negative, the shares are those of the four kinds of time in the radiation of the week; they add up to it, and none is negative when the week has 1 to 7 working days. *)
Theorem C27_fractions_partial : forall (po : population_t R) (w : mweather R) b i row, 0 < day_length po < 24 -> full_tables w -> (forall r, In r (mw_mhEgh w) -> all_nonneg r) ->
  solarRadiationBreakdown (scheduleAndOccupancy (map_population Fin po)) (fin_weather w) = Ok b -> nth_error (mw_mhEgh w) i = Some row ->
  let h := day_length po in let d := week_days po in let W := sun_week h row in
  0 < W /\ sun_work_day h d row + sun_week_night h d row + sun_weekend_day h d row + sun_weekend_night h d row = W /\
  nth_error (bd_wk_nt b) i = Some (Fin (sun_week_night h d row / W)) /\
  nth_error (bd_wke_day b) i = Some (Fin (sun_weekend_day h d row / W)) /\
  nth_error (bd_wke_nt b) i = Some (Fin (sun_weekend_night h d row / W)) /\
  (1 <= d <= 7 -> 0 <= sun_work_day h d row /\ 0 <= sun_week_night h d row /\ 0 <= sun_weekend_day h d row /\ 0 <= sun_weekend_night h d row).
Proof. exact C27_l. Qed.
Print Assumptions C27_fractions_partial.

(** With less than one working day and sun outside the window the share of week nights is negative. *)
Theorem C27_days : forall (po : population_t R) (w : mweather R) b i row, 0 < day_length po < 24 -> full_tables w -> (forall r, In r (mw_mhEgh w) -> all_nonneg r) ->
  solarRadiationBreakdown (scheduleAndOccupancy (map_population Fin po)) (fin_weather w) = Ok b -> nth_error (mw_mhEgh w) i = Some row ->
  week_days po < 1 -> (exists k x, nth_error row k = Some x /\ in_window (day_length po) k = false /\ 0 < x) -> exists r, nth_error (bd_wk_nt b) i = Some (Fin r) /\ r < 0.
Proof. exact C27_days_l. Qed.
Print Assumptions C27_days.

(** Monday to Sunday counts as no day at all. *)
Theorem C27_refuted : exists po w b r, whole_schedule po 8 12 1 0 /\ full_tables w /\ (forall x, In x (mw_mhEgh w) -> all_nonneg x) /\
  solarRadiationBreakdown (scheduleAndOccupancy (map_population Fin po)) (fin_weather w) = Ok b /\ nth_error (bd_wk_nt b) 0 = Some (Fin r) /\ r < 0.
Proof. exact C27_refuted_l. Qed.
Print Assumptions C27_refuted.

Example C27_case : 0 < day_length (week_schedule 8 17 1 5) < 24 /\ 1 <= week_days (week_schedule 8 17 1 5) <= 7 /\
  exists b, solarRadiationBreakdown (scheduleAndOccupancy (map_population Fin (week_schedule 8 17 1 5))) (fin_weather mildYear) = Ok b.
Proof. destruct week_8_17 as [-> ->]. repeat split; try lra. apply office_breakdown. Qed.
