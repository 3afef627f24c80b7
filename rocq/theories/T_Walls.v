(** C111: the same building with better and poorer insulated walls. *)
From Coq Require Import Reals Lra ZArith List.
From Verif Require Import Base Num Xr M_Params M_Hourly M_Map S_Physical S_Network S_Year S_HourSpec S_Balance S_Compare S_YearCompare S_Insulation S_Walls
  L_Office2 L_HourlyThm4 L_YearCompare3 L_Recovery L_Walls L_Walls2.
Open Scope R_scope.

(** An hour colder outside than the room and the mass, without sun on the walls: the better insulated building ends no colder, needs no more heating and no less cooling. *)
Theorem C111_hour_partial : forall p us i i' sc w th th' qh qc tm ta qh' qc' tm' ta', let q := walled p us in
  physical p -> physical q -> mass_slow q -> sources_ok p -> daylit p -> recovery_ok p -> poorer_walls p us ->
  initialize (map_params Fin q) no_ratios = Ok i -> initialize (map_params Fin p) no_ratios = Ok i' ->
  0 <= sc_vent sc -> 0 <= sc_intEquip sc -> 0 <= sc_intLight sc -> all_nonneg (we_sol w) -> unlit_walls p w -> sc_heatSP sc <= sc_coolSP sc ->
  cold_outside w (th_TMT1 th) (sc_heatSP sc) -> th_TMT1 th <= th_TMT1 th' -> th_ti th = th_ti th' ->
  hour_gives q i sc w th qh qc tm ta -> hour_gives p i' sc w th' qh' qc' tm' ta' ->
  ta <= ta' /\ tm <= tm' /\ qh' <= qh /\ qc <= qc'.
Proof. exact C111_hour_l. Qed.
Print Assumptions C111_hour_partial.

(** Every hour of a year that never becomes warmer, begins colder than the set-points and has no sun on the walls. *)
Theorem C111_year_partial : forall p us lo hi tt t ws raw raw' r r', let q := walled p us in
  physical p -> physical q -> ordered_setpoints p -> mass_slow q -> sources_ok p -> daylit p -> recovery_ok p -> poorer_walls p us -> timetable_of p tt -> encloses lo hi p ->
  (forall w, In w ws -> steady_leak p lo hi w /\ all_nonneg (we_sol w) /\ unlit_walls p w) -> never_warmer t ws ->
  t <= 20 -> t <= ht_tempOcc (pa_heating p) -> t <= ht_tempUnocc (pa_heating p) ->
  simulateRaw (map_params Fin q) (map (map_weather Fin) ws) no_ratios = Ok (raw, r) ->
  simulateRaw (map_params Fin p) (map (map_weather Fin) ws) no_ratios = Ok (raw', r') ->
  forall k h h', nth_error raw k = Some h -> nth_error raw' k = Some h' ->
  exists qh qc qh' qc', hr_Qneed_ht h = Fin qh /\ hr_Qneed_cl h = Fin qc /\ hr_Qneed_ht h' = Fin qh' /\ hr_Qneed_cl h' = Fin qc' /\
    qh' <= qh /\ qc <= qc'.
Proof. exact C111_year_l. Qed.
Print Assumptions C111_year_partial.

(** The office with its own walls and with walls of 0.5 and a roof of 3 W/m2K, at 0 degrees. *)
Example C111_hour_case : let p := still_office in let q := walled p thin_walls in
  physical p /\ physical q /\ mass_slow q /\ sources_ok p /\ daylit p /\ recovery_ok p /\ poorer_walls p thin_walls /\ cold_outside (dark_hour 0) 5 20 /\ all_nonneg (we_sol (dark_hour 0)) /\
  unlit_walls p (dark_hour 0) /\
  exists i i', initialize (map_params Fin q) no_ratios = Ok i /\ initialize (map_params Fin p) no_ratios = Ok i' /\
  (exists qh qc tm ta, hour_gives q i (airy_sched 20 26) (dark_hour 0) {| th_TMT1 := 5; th_ti := 18 |} qh qc tm ta) /\
  exists qh qc tm ta, hour_gives p i' (airy_sched 20 26) (dark_hour 0) {| th_TMT1 := 5; th_ti := 18 |} qh qc tm ta.
Proof. exact C111_hour_case_l. Qed.

(** The same in a windy year of 15 degrees. *)
Example C111_case : let p := still_office in let q := walled p thin_walls in
  physical p /\ physical q /\ ordered_setpoints p /\ mass_slow q /\ sources_ok p /\ daylit p /\ recovery_ok p /\ poorer_walls p thin_walls /\ timetable_of p office_hours /\ encloses 18 22 p /\
  (forall w, In w windy_year -> steady_leak p 18 22 w /\ all_nonneg (we_sol w) /\ unlit_walls p w) /\ never_warmer 15 windy_year /\
  15 <= ht_tempOcc (pa_heating p) /\ 15 <= ht_tempUnocc (pa_heating p) /\
  (exists raw r, simulateRaw (map_params Fin q) (map (map_weather Fin) windy_year) no_ratios = Ok (raw, r)) /\
  exists raw r, simulateRaw (map_params Fin p) (map (map_weather Fin) windy_year) no_ratios = Ok (raw, r).
Proof. exact C111_year_case_l. Qed.

(** In an hour warmer outside than a cooled-out building it is false: the poorer walls let in heat. *)
Theorem C111_refuted : exists p us i i' sc w th qh qc tm ta qh' qc' tm' ta', let q := walled p us in
  physical p /\ physical q /\ mass_slow q /\ sources_ok p /\ daylit p /\ recovery_ok p /\ poorer_walls p us /\
  initialize (map_params Fin q) no_ratios = Ok i /\ initialize (map_params Fin p) no_ratios = Ok i' /\
  0 <= sc_vent sc /\ 0 <= sc_intEquip sc /\ 0 <= sc_intLight sc /\ all_nonneg (we_sol w) /\ unlit_walls p w /\ sc_heatSP sc <= sc_coolSP sc /\
  hour_gives q i sc w th qh qc tm ta /\ hour_gives p i' sc w th qh' qc' tm' ta' /\ qh < qh'.
Proof. exact C111_refuted_l. Qed.
Print Assumptions C111_refuted.
