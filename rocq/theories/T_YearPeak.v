(** C101: the cooling load. *)
From Coq Require Import Reals Lra ZArith List.
From Verif Require Import Base Num Xr M_Params M_Hourly M_Map S_Physical S_Network S_Year S_HourSpec S_Balance S_Compare S_YearCompare S_YearLoad
  L_Office2 L_HourlyThm4 L_YearPeak L_YearPeak2.
Import ListNotations.
Open Scope R_scope.

(** No hour needs more cooling than the fresh air, the transmission and the greatest gains of sun and sources. *)
Theorem C101_cooling_load : forall p lo hi tt V S I out top ws raw r,
  physical p -> ordered_setpoints p -> mass_slow p -> recovery_ok p -> sources_ok p -> timetable_of p tt -> encloses lo hi p ->
  20 <= top <= out -> cl_tempOcc (pa_cooling p) <= top -> cl_tempUnocc (pa_cooling p) <= top -> ve_preheat (pa_ventilation p) <= out -> 0 <= S -> 0 <= I ->
  (forall w, In w ws -> we_temp w <= out /\ gains_below p tt S I w /\ fresh_air_below p lo hi V w) ->
  simulateRaw (map_params Fin p) (map (map_weather Fin) ws) no_ratios = Ok (raw, r) ->
  forall k h, nth_error raw k = Some h -> exists qc, hr_Qneed_cl h = Fin qc /\ qc <= cooling_load p V (S + I) out top (cool_at p tt (Z.of_nat k)).
Proof. exact C101_l. Qed.
Print Assumptions C101_cooling_load.

(** The office with appliances in a hot, windy and sunny year. *)
Example C101_case : let p := busy_office in let V := sp_wind still_office 20 + sp_supply still_office (ve_supplyRate (pa_ventilation still_office)) in
  let S := sp_solar p (we_sol hot_hour) in
  physical p /\ ordered_setpoints p /\ mass_slow p /\ recovery_ok p /\ sources_ok p /\ timetable_of p office_hours /\ encloses 18 22 p /\
  cl_tempOcc (pa_cooling p) <= 22 /\ cl_tempUnocc (pa_cooling p) <= 22 /\ ve_preheat (pa_ventilation p) <= 30 /\ 0 <= S /\
  (forall w, In w hot_year -> we_temp w <= 30 /\ gains_below p office_hours S 5 w /\ fresh_air_below p 18 22 V w) /\
  exists raw r, simulateRaw (map_params Fin p) (map (map_weather Fin) hot_year) no_ratios = Ok (raw, r).
Proof. exact C101_case_l. Qed.
