(** C107: the same building with better and with poorer windows. *)
From Coq Require Import Reals Lra ZArith List.
From Verif Require Import Base Num Xr M_Params M_Hourly M_Map S_Physical S_Network S_Year S_HourSpec S_Balance S_Compare S_YearCompare S_Insulation
  L_Office2 L_HourlyThm4 L_YearCompare3 L_Insulation L_Insulation2.
Open Scope R_scope.

(** An hour colder outside than the mass and the heating set-point: with the better windows of [p] the building ends no colder,
    needs no more heating and no less cooling than with the windows [us]. *)
Theorem C107_hour_partial : forall p us i i' sc w th th' qh qc tm ta qh' qc' tm' ta', let q := glazed p us in
  physical p -> mass_slow p -> sources_ok q -> daylit p -> recovery_ok p -> poorer_windows p us ->
  initialize (map_params Fin q) no_ratios = Ok i -> initialize (map_params Fin p) no_ratios = Ok i' ->
  0 <= sc_vent sc -> 0 <= sc_intEquip sc -> 0 <= sc_intLight sc -> all_nonneg (we_sol w) -> sc_heatSP sc <= sc_coolSP sc ->
  cold_outside w (th_TMT1 th) (sc_heatSP sc) -> th_TMT1 th <= th_TMT1 th' -> th_ti th = th_ti th' ->
  hour_gives q i sc w th qh qc tm ta -> hour_gives p i' sc w th' qh' qc' tm' ta' ->
  ta <= ta' /\ tm <= tm' /\ qh' <= qh /\ qc <= qc'.
Proof. exact C107_hour_l. Qed.
Print Assumptions C107_hour_partial.

(** Every hour of a year that never becomes warmer and begins colder than the set-points. *)
Theorem C107_year_partial : forall p us lo hi tt t ws raw raw' r r', let q := glazed p us in
  physical p -> ordered_setpoints p -> mass_slow p -> sources_ok q -> daylit p -> recovery_ok p -> poorer_windows p us -> timetable_of p tt -> encloses lo hi p ->
  (forall w, In w ws -> steady_leak p lo hi w /\ all_nonneg (we_sol w)) -> never_warmer t ws ->
  t <= 20 -> t <= ht_tempOcc (pa_heating p) -> t <= ht_tempUnocc (pa_heating p) ->
  simulateRaw (map_params Fin q) (map (map_weather Fin) ws) no_ratios = Ok (raw, r) ->
  simulateRaw (map_params Fin p) (map (map_weather Fin) ws) no_ratios = Ok (raw', r') ->
  forall k h h', nth_error raw k = Some h -> nth_error raw' k = Some h' ->
  exists qh qc qh' qc', hr_Qneed_ht h = Fin qh /\ hr_Qneed_cl h = Fin qc /\ hr_Qneed_ht h' = Fin qh' /\ hr_Qneed_cl h' = Fin qc' /\
    qh' <= qh /\ qc <= qc'.
Proof. exact C107_year_l. Qed.
Print Assumptions C107_year_partial.

(** The office with its windows of 2.653 and with panes of 4 W/K per m2 at 0 degrees. *)
Example C107_case : let p := still_office in let q := glazed p single_panes in
  physical p /\ mass_slow p /\ sources_ok q /\ daylit p /\ recovery_ok p /\ poorer_windows p single_panes /\ cold_outside (dark_hour 0) 5 20 /\ all_nonneg (we_sol (dark_hour 0)) /\
  exists i i', initialize (map_params Fin q) no_ratios = Ok i /\ initialize (map_params Fin p) no_ratios = Ok i' /\
  (exists qh qc tm ta, hour_gives q i (idle_sched 20 26) (dark_hour 0) {| th_TMT1 := 5; th_ti := 18 |} qh qc tm ta) /\
  exists qh qc tm ta, hour_gives p i' (idle_sched 20 26) (dark_hour 0) {| th_TMT1 := 5; th_ti := 18 |} qh qc tm ta.
Proof. exact C107_case_l. Qed.
(** The same in a windy year of 15 degrees. *)
Example C107_year_case : let p := still_office in let q := glazed p single_panes in
  physical p /\ ordered_setpoints p /\ mass_slow p /\ sources_ok q /\ daylit p /\ recovery_ok p /\ poorer_windows p single_panes /\ timetable_of p office_hours /\ encloses 18 22 p /\
  (forall w, In w windy_year -> steady_leak p 18 22 w /\ all_nonneg (we_sol w)) /\ never_warmer 15 windy_year /\
  15 <= ht_tempOcc (pa_heating p) /\ 15 <= ht_tempUnocc (pa_heating p) /\
  (exists raw r, simulateRaw (map_params Fin q) (map (map_weather Fin) windy_year) no_ratios = Ok (raw, r)) /\
  exists raw r, simulateRaw (map_params Fin p) (map (map_weather Fin) windy_year) no_ratios = Ok (raw, r).
Proof. exact C107_year_case_l. Qed.

(** Without the condition on the mass it is false: in an hour warmer outside than the cooled-out building, poorer windows save heating. *)
Theorem C107_refuted : exists p us i i' sc w th qh qc tm ta qh' qc' tm' ta', let q := glazed p us in
  physical p /\ mass_slow p /\ sources_ok q /\ daylit p /\ recovery_ok p /\ poorer_windows p us /\
  initialize (map_params Fin q) no_ratios = Ok i /\ initialize (map_params Fin p) no_ratios = Ok i' /\
  0 <= sc_vent sc /\ 0 <= sc_intEquip sc /\ 0 <= sc_intLight sc /\ all_nonneg (we_sol w) /\ sc_heatSP sc <= sc_coolSP sc /\ we_temp w <= sc_heatSP sc /\ we_temp w <= 20 /\
  hour_gives q i sc w th qh qc tm ta /\ hour_gives p i' sc w th qh' qc' tm' ta' /\ qh < qh'.
Proof. exact C107_refuted_l. Qed.
Print Assumptions C107_refuted.
