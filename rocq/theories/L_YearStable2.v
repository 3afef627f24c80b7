(** Cases for C96 and C97: windy years of 15 and of 16 degrees. *)
From Coq Require Import Reals Lra Psatz ZArith List Lia.
From Verif Require Import Base Num Xr M_Params M_Hourly M_Map S_RC S_Physical S_Network S_Year S_HourSpec S_Balance S_Compare S_YearCompare S_YearClimate S_YearStable S_MonthlyClimate E_SmallOffice S_Edit
  L_Xr L_HourlyShape L_HourlyThm4 L_Office L_Office2 L_HourlyBalance2 L_Compare3 L_MonthlyClimate L_YearCompare L_YearCompare3 L_YearClimate2 L_YearStable.
Import ListNotations.
Open Scope R_scope.

Lemma mild_close : close_hour 1 windy_hour mild_hour /\ same_leak still_office 18 22 windy_hour mild_hour.
Proof.
  split; [|exact (proj2 mild_same)]. split; [reflexivity|]. split; [reflexivity|].
  replace (we_temp windy_hour) with 15 by (onum; lra). replace (we_temp mild_hour) with 16 by (onum; lra). rewrite Rabs_right; lra.
Qed.
Lemma C97_case_l : let p := still_office in
  physical p /\ ordered_setpoints p /\ mass_slow p /\ recovery_ok p /\ timetable_of p office_hours /\ encloses 18 22 p /\
  Forall2 (fun w w' => close_hour 1 w w' /\ same_leak p 18 22 w w') windy_year mild_year /\
  (exists raw r, simulateRaw (map_params Fin p) (map (map_weather Fin) windy_year) no_ratios = Ok (raw, r)) /\
  exists raw r, simulateRaw (map_params Fin p) (map (map_weather Fin) mild_year) no_ratios = Ok (raw, r).
Proof.
  cbv zeta. split; [exact still_physical|]. split; [exact still_ordered|]. split; [exact office_slow|]. split; [exact still_recovery|]. split; [exact still_timetable|].
  split; [unfold encloses; onum; lra|]. split; [apply Forall2_repeat; exact mild_close|]. split; [exact (windy_runs 0 0)|exact mild_runs].
Qed.
(** A first day of 16 degrees in a year of 15 degrees. *)
Definition first_day {T} {N : Num T} (w : weather T) : list (weather T) := repeat w 24.
Definition rest_of_year {T} {N : Num T} : list (weather T) := repeat windy_hour (Z.to_nat 8736).
Lemma first_day_runs w : length (we_sol w) = 9%nat -> exists raw r, simulateRaw (map_params Fin still_office) (map (map_weather Fin) (first_day w ++ rest_of_year)) no_ratios = Ok (raw, r).
Proof.
  intros L. apply simulateRaw_ok.
  - apply office_ints.
  - reflexivity.
  - unfold first_day, rest_of_year. rewrite map_length, app_length, !repeat_length. lia.
  - intros v Hv. apply in_map_iff in Hv. destruct Hv as (u & <- & Hu). apply in_app_or in Hu. destruct Hu as [Hu|Hu]; apply repeat_spec in Hu; subst u; [unfold map_weather; cbn [we_sol]; unfold nine; rewrite map_length, L; reflexivity|reflexivity].
Qed.
Lemma C96_case_l : let p := still_office in
  physical p /\ ordered_setpoints p /\ mass_slow p /\ recovery_ok p /\ timetable_of p office_hours /\ encloses 18 22 p /\
  Forall2 (fun w w' => close_hour 1 w w' /\ same_leak p 18 22 w w') (first_day windy_hour) (first_day mild_hour) /\
  (forall w, In w rest_of_year -> same_leak p 18 22 w w) /\
  (exists raw r, simulateRaw (map_params Fin p) (map (map_weather Fin) (first_day windy_hour ++ rest_of_year)) no_ratios = Ok (raw, r)) /\
  exists raw r, simulateRaw (map_params Fin p) (map (map_weather Fin) (first_day mild_hour ++ rest_of_year)) no_ratios = Ok (raw, r).
Proof.
  cbv zeta. split; [exact still_physical|]. split; [exact still_ordered|]. split; [exact office_slow|]. split; [exact still_recovery|]. split; [exact still_timetable|].
  split; [unfold encloses; onum; lra|]. split; [apply Forall2_repeat; exact mild_close|].
  split; [intros w Hw; apply repeat_spec in Hw; subst w; exact (leak_self _ _ _ _ _ (proj2 mild_close))|].
  split; apply first_day_runs; reflexivity.
Qed.
