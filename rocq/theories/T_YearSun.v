(** C115: the same building in a sunnier year, hour by hour. *)
From Coq Require Import Reals List.
From Verif Require Import Base Num Xr M_Params M_Hourly M_Map S_Physical S_Network S_Year S_HourSpec S_Balance S_YearCompare S_YearSun
  L_Office2 L_HourlyThm4 L_YearSun L_YearSun2.
Open Scope R_scope.

(** C115: where the sun is stronger no hour needs more heating or less cooling, provided that drawing the shades does not
    darken the windows more than the sun brightens them and that daylight does not dim the lamps. *)
Theorem C115_hours_partial : forall p lo hi tt ws ws' raw raw' r r',
  physical p -> ordered_setpoints p -> mass_slow p -> sources_ok p -> shades_admit p -> timetable_of p tt -> encloses lo hi p ->
  Forall2 (fun w w' => sunnier_hour w w' /\ steady_leak p lo hi w /\ lamps_alike p w w') ws ws' ->
  simulateRaw (map_params Fin p) (map (map_weather Fin) ws) no_ratios = Ok (raw, r) ->
  simulateRaw (map_params Fin p) (map (map_weather Fin) ws') no_ratios = Ok (raw', r') ->
  forall k h h', nth_error raw k = Some h -> nth_error raw' k = Some h' ->
  exists qh qc qh' qc', hr_Qneed_ht h = Fin qh /\ hr_Qneed_cl h = Fin qc /\ hr_Qneed_ht h' = Fin qh' /\ hr_Qneed_cl h' = Fin qc' /\
    qh' <= qh /\ qc <= qc'.
Proof. exact C115_l. Qed.
Print Assumptions C115_hours_partial.

(** The office without loads in a windy year with 100 and with 300 W/m2 of sun on every surface. *)
Example C115_case : let p := still_office in
  physical p /\ ordered_setpoints p /\ mass_slow p /\ sources_ok p /\ shades_admit p /\ timetable_of p office_hours /\ encloses 18 22 p /\
  Forall2 (fun w w' => sunnier_hour w w' /\ steady_leak p 18 22 w /\ lamps_alike p w w') (lit_year 100) (lit_year 300) /\
  (exists raw r, simulateRaw (map_params Fin p) (map (map_weather Fin) (lit_year 100)) no_ratios = Ok (raw, r)) /\
  exists raw r, simulateRaw (map_params Fin p) (map (map_weather Fin) (lit_year 300)) no_ratios = Ok (raw, r).
Proof. exact C115_case_l. Qed.

(** Without [lamps_alike] the property is false: daylight turns off lamps that warmed the building. *)
Theorem C115_lamps_refuted : exists p lo hi tt ws ws' raw raw' r r' k h h' q q',
  physical p /\ ordered_setpoints p /\ mass_slow p /\ sources_ok p /\ shades_admit p /\ timetable_of p tt /\ encloses lo hi p /\
  Forall2 (fun w w' => sunnier_hour w w' /\ steady_leak p lo hi w) ws ws' /\
  simulateRaw (map_params Fin p) (map (map_weather Fin) ws) no_ratios = Ok (raw, r) /\
  simulateRaw (map_params Fin p) (map (map_weather Fin) ws') no_ratios = Ok (raw', r') /\
  nth_error raw k = Some h /\ nth_error raw' k = Some h' /\ hr_Qneed_ht h = Fin q /\ hr_Qneed_ht h' = Fin q' /\ q < q'.
Proof. exact C115_lamps_l. Qed.
Print Assumptions C115_lamps_refuted.

(** Without [shades_admit] too: strong sun draws shades that let nothing in. *)
Theorem C115_shades_refuted : exists p lo hi tt ws ws' raw raw' r r' k h h' q q',
  physical p /\ ordered_setpoints p /\ mass_slow p /\ sources_ok p /\ timetable_of p tt /\ encloses lo hi p /\
  Forall2 (fun w w' => sunnier_hour w w' /\ steady_leak p lo hi w /\ lamps_alike p w w') ws ws' /\
  simulateRaw (map_params Fin p) (map (map_weather Fin) ws) no_ratios = Ok (raw, r) /\
  simulateRaw (map_params Fin p) (map (map_weather Fin) ws') no_ratios = Ok (raw', r') /\
  nth_error raw k = Some h /\ nth_error raw' k = Some h' /\ hr_Qneed_ht h = Fin q /\ hr_Qneed_ht h' = Fin q' /\ q < q'.
Proof. exact C115_shades_l. Qed.
Print Assumptions C115_shades_refuted.
