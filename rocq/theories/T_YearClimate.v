(** C94, C95: the same building in a warmer year and with higher set-points, over the whole simulated year. *)
From Coq Require Import Reals Lra ZArith List.
From Verif Require Import Base Num Xr M_Params M_Hourly M_Map S_Physical S_Network S_Year S_HourSpec S_Balance S_YearCompare S_YearClimate S_MonthlyClimate
  L_Office2 L_HourlyThm4 L_YearCompare3 L_YearClimate L_YearClimate2.
Open Scope R_scope.

(** C94: in warmer weather every hour needs no more heating and no less cooling. *)
Theorem C94_hours_partial : forall p lo hi tt ws ws' raw raw' r r',
  physical p -> ordered_setpoints p -> mass_slow p -> recovery_ok p -> timetable_of p tt -> encloses lo hi p ->
  Forall2 (fun w w' => warmer_hour w w' /\ same_leak p lo hi w w') ws ws' ->
  simulateRaw (map_params Fin p) (map (map_weather Fin) ws) no_ratios = Ok (raw, r) ->
  simulateRaw (map_params Fin p) (map (map_weather Fin) ws') no_ratios = Ok (raw', r') ->
  forall k h h', nth_error raw k = Some h -> nth_error raw' k = Some h' ->
  exists qh qc qh' qc', hr_Qneed_ht h = Fin qh /\ hr_Qneed_cl h = Fin qc /\ hr_Qneed_ht h' = Fin qh' /\ hr_Qneed_cl h' = Fin qc' /\
    qh' <= qh /\ qc <= qc'.
Proof. exact C94_l. Qed.
Print Assumptions C94_hours_partial.

(** The office without loads in a windy year of 15 and of 16 degrees. *)
Example C94_case : let p := still_office in
  physical p /\ ordered_setpoints p /\ mass_slow p /\ recovery_ok p /\ timetable_of p office_hours /\ encloses 18 22 p /\
  Forall2 (fun w w' => warmer_hour w w' /\ same_leak p 18 22 w w') windy_year mild_year /\
  (exists raw r, simulateRaw (map_params Fin p) (map (map_weather Fin) windy_year) no_ratios = Ok (raw, r)) /\
  exists raw r, simulateRaw (map_params Fin p) (map (map_weather Fin) mild_year) no_ratios = Ok (raw, r).
Proof. exact C94_case_l. Qed.

(** Without [same_leak] the property is false: a very leaky building that has become warm in a warm hour leaks more
    in the cold hour that follows. *)
Theorem C94_refuted : exists p tt ws ws' raw raw' r r' k h h' q q',
  physical p /\ ordered_setpoints p /\ mass_slow p /\ recovery_ok p /\ timetable_of p tt /\ Forall2 warmer_hour ws ws' /\
  simulateRaw (map_params Fin p) (map (map_weather Fin) ws) no_ratios = Ok (raw, r) /\
  simulateRaw (map_params Fin p) (map (map_weather Fin) ws') no_ratios = Ok (raw', r') /\
  nth_error raw k = Some h /\ nth_error raw' k = Some h' /\ hr_Qneed_ht h = Fin q /\ hr_Qneed_ht h' = Fin q' /\ q < q'.
Proof. exact C94_refuted_l. Qed.
Print Assumptions C94_refuted.

(** C95: with higher set-points the year needs no less heating net of cooling. *)
Theorem C95_year : forall p ho hu co cu lo hi tt ws raw raw' r r', let q := set_points p ho hu co cu in
  physical p -> ordered_setpoints p -> ordered_setpoints q -> mass_slow p -> timetable_of p tt ->
  ht_tempOcc (pa_heating p) <= ho -> ht_tempUnocc (pa_heating p) <= hu -> cl_tempOcc (pa_cooling p) <= co -> cl_tempUnocc (pa_cooling p) <= cu ->
  encloses lo hi p -> encloses lo hi q -> (forall w, In w ws -> steady_leak p lo hi w) ->
  simulateRaw (map_params Fin p) (map (map_weather Fin) ws) no_ratios = Ok (raw, r) ->
  simulateRaw (map_params Fin q) (map (map_weather Fin) ws) no_ratios = Ok (raw', r') ->
  forall qh qc qh' qc',
  map hr_Qneed_ht raw = map Fin qh -> map hr_Qneed_cl raw = map Fin qc -> map hr_Qneed_ht raw' = map Fin qh' -> map hr_Qneed_cl raw' = map Fin qc' ->
  Rsum qh - Rsum qc <= Rsum qh' - Rsum qc'.
Proof. exact C95_l. Qed.
Print Assumptions C95_year.

(** The office without loads in a windy year, heated to 18 and to 20 and 19 degrees. *)
Example C95_case : let p := still_office in let q := set_points p 20 19 22 22 in
  physical p /\ ordered_setpoints p /\ ordered_setpoints q /\ mass_slow p /\ timetable_of p office_hours /\
  ht_tempOcc (pa_heating p) <= 20 /\ ht_tempUnocc (pa_heating p) <= 19 /\ cl_tempOcc (pa_cooling p) <= 22 /\ cl_tempUnocc (pa_cooling p) <= 22 /\
  encloses 18 22 p /\ encloses 18 22 q /\ (forall w, In w windy_year -> steady_leak p 18 22 w) /\
  (exists raw r, simulateRaw (map_params Fin p) (map (map_weather Fin) windy_year) no_ratios = Ok (raw, r)) /\
  exists raw r, simulateRaw (map_params Fin q) (map (map_weather Fin) windy_year) no_ratios = Ok (raw, r).
Proof. exact C95_case_l. Qed.
