(** C93: the same building and weather with more appliances, over the whole simulated year. *)
From Coq Require Import Reals Lra ZArith List.
From Verif Require Import Base Num Xr M_Params M_Hourly M_Map S_Physical S_Network S_Year S_HourSpec S_Balance S_YearCompare
  L_Office2 L_HourlyThm4 L_YearCompare2 L_YearCompare3 L_YearCompare4.
Open Scope R_scope.

(** Every hour needs no more heating and no less cooling. *)
Theorem C93_hours_partial : forall p x y lo hi tt ws raw raw' r r',
  physical p -> ordered_setpoints p -> mass_slow p -> sources_ok p -> timetable_of p tt ->
  bu_elecApplianceOcc (pa_building p) <= x -> bu_elecApplianceUnocc (pa_building p) <= y -> encloses lo hi p ->
  (forall w, In w ws -> steady_leak p lo hi w) ->
  simulateRaw (map_params Fin p) (map (map_weather Fin) ws) no_ratios = Ok (raw, r) ->
  simulateRaw (map_params Fin (set_appliances p x y)) (map (map_weather Fin) ws) no_ratios = Ok (raw', r') ->
  forall k h h', nth_error raw k = Some h -> nth_error raw' k = Some h' ->
  exists qh qc qh' qc', hr_Qneed_ht h = Fin qh /\ hr_Qneed_cl h = Fin qc /\ hr_Qneed_ht h' = Fin qh' /\ hr_Qneed_cl h' = Fin qc' /\
    qh' <= qh /\ qc <= qc'.
Proof. exact C93_hours_l. Qed.
Print Assumptions C93_hours_partial.

(** Over the year the heating saved and the cooling added together do not exceed the electricity added. *)
Theorem C93_year_partial : forall p x y lo hi tt ws raw raw' r r',
  physical p -> ordered_setpoints p -> mass_slow p -> sources_ok p -> timetable_of p tt ->
  bu_elecApplianceOcc (pa_building p) <= x -> bu_elecApplianceUnocc (pa_building p) <= y -> encloses lo hi p ->
  (forall w, In w ws -> steady_leak p lo hi w) ->
  simulateRaw (map_params Fin p) (map (map_weather Fin) ws) no_ratios = Ok (raw, r) ->
  simulateRaw (map_params Fin (set_appliances p x y)) (map (map_weather Fin) ws) no_ratios = Ok (raw', r') ->
  forall qh qc e qh' qc' e',
  map hr_Qneed_ht raw = map Fin qh -> map hr_Qneed_cl raw = map Fin qc -> map hr_plug raw = map Fin e ->
  map hr_Qneed_ht raw' = map Fin qh' -> map hr_Qneed_cl raw' = map Fin qc' -> map hr_plug raw' = map Fin e' ->
  (Rsum qh - Rsum qh') + (Rsum qc' - Rsum qc) <= Rsum e' - Rsum e.
Proof. exact C93_year_l. Qed.
Print Assumptions C93_year_partial.

(** A windy year at the office without loads, and with 5 and 1 W/m2. *)
Example C93_case : let p := still_office in
  physical p /\ ordered_setpoints p /\ mass_slow p /\ sources_ok p /\ timetable_of p office_hours /\
  bu_elecApplianceOcc (pa_building p) <= 5 /\ bu_elecApplianceUnocc (pa_building p) <= 1 /\ encloses 18 22 p /\
  (forall w, In w windy_year -> steady_leak p 18 22 w) /\
  (exists raw r, simulateRaw (map_params Fin p) (map (map_weather Fin) windy_year) no_ratios = Ok (raw, r)) /\
  exists raw r, simulateRaw (map_params Fin (set_appliances p 5 1)) (map (map_weather Fin) windy_year) no_ratios = Ok (raw, r).
Proof. exact C93_case_l. Qed.

(** Without [steady_leak] the property is false: in a very leaky building the air warmed by the appliances of one
    hour makes the building leak more in the next, which then needs more heating. *)
Theorem C93_refuted : exists p x y tt ws raw raw' r r' k h h' q q',
  physical p /\ ordered_setpoints p /\ mass_slow p /\ sources_ok p /\ timetable_of p tt /\
  bu_elecApplianceOcc (pa_building p) <= x /\ bu_elecApplianceUnocc (pa_building p) <= y /\
  simulateRaw (map_params Fin p) (map (map_weather Fin) ws) no_ratios = Ok (raw, r) /\
  simulateRaw (map_params Fin (set_appliances p x y)) (map (map_weather Fin) ws) no_ratios = Ok (raw', r') /\
  nth_error raw k = Some h /\ nth_error raw' k = Some h' /\ hr_Qneed_ht h = Fin q /\ hr_Qneed_ht h' = Fin q' /\ q < q'.
Proof. exact C93_refuted_l. Qed.
Print Assumptions C93_refuted.
