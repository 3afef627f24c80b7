(** C109: the same building with a tighter and a leakier envelope. *)
From Coq Require Import Reals Lra ZArith List.
From Verif Require Import Base Num Xr M_Params M_Hourly M_Map S_Physical S_Network S_Year S_HourSpec S_Balance S_Compare S_YearCompare S_Insulation S_Airtight
  L_Office2 L_HourlyThm4 L_YearCompare3 L_Recovery L_Airtight L_Airtight2.
Open Scope R_scope.

(** An hour colder outside than the room and the mass: the tighter building ends no colder, needs no more heating and no less cooling. *)
Theorem C109_hour_partial : forall p n i i' sc w th th' qh qc tm ta qh' qc' tm' ta', let q := with_n50 p n in
  physical p -> mass_slow p -> sources_ok p -> daylit p -> recovery_ok p -> leakier p n ->
  initialize (map_params Fin q) no_ratios = Ok i -> initialize (map_params Fin p) no_ratios = Ok i' ->
  0 <= sc_vent sc -> 0 <= sc_intEquip sc -> 0 <= sc_intLight sc -> all_nonneg (we_sol w) -> sc_heatSP sc <= sc_coolSP sc ->
  cold_outside w (th_TMT1 th) (sc_heatSP sc) -> th_TMT1 th <= th_TMT1 th' -> th_ti th = th_ti th' ->
  hour_gives q i sc w th qh qc tm ta -> hour_gives p i' sc w th' qh' qc' tm' ta' ->
  ta <= ta' /\ tm <= tm' /\ qh' <= qh /\ qc <= qc'.
Proof. exact C109_hour_l. Qed.
Print Assumptions C109_hour_partial.

(** Every hour of a year that never becomes warmer and begins colder than the set-points. *)
Theorem C109_year_partial : forall p n lo hi tt t ws raw raw' r r', let q := with_n50 p n in
  physical p -> ordered_setpoints p -> mass_slow p -> sources_ok p -> daylit p -> recovery_ok p -> leakier p n -> timetable_of p tt -> encloses lo hi p ->
  (forall w, In w ws -> steady_leak p lo hi w /\ all_nonneg (we_sol w)) -> never_warmer t ws ->
  t <= 20 -> t <= ht_tempOcc (pa_heating p) -> t <= ht_tempUnocc (pa_heating p) ->
  simulateRaw (map_params Fin q) (map (map_weather Fin) ws) no_ratios = Ok (raw, r) ->
  simulateRaw (map_params Fin p) (map (map_weather Fin) ws) no_ratios = Ok (raw', r') ->
  forall k h h', nth_error raw k = Some h -> nth_error raw' k = Some h' ->
  exists qh qc qh' qc', hr_Qneed_ht h = Fin qh /\ hr_Qneed_cl h = Fin qc /\ hr_Qneed_ht h' = Fin qh' /\ hr_Qneed_cl h' = Fin qc' /\
    qh' <= qh /\ qc <= qc'.
Proof. exact C109_year_l. Qed.
Print Assumptions C109_year_partial.

(** The ventilated office with 2 and with 4 air changes at 50 Pa, at 0 degrees. *)
Example C109_hour_case : let p := still_office in let q := with_n50 p 4 in
  physical p /\ mass_slow p /\ sources_ok p /\ daylit p /\ recovery_ok p /\ leakier p 4 /\ cold_outside (dark_hour 0) 5 20 /\ all_nonneg (we_sol (dark_hour 0)) /\
  exists i i', initialize (map_params Fin q) no_ratios = Ok i /\ initialize (map_params Fin p) no_ratios = Ok i' /\
  (exists qh qc tm ta, hour_gives q i (airy_sched 20 26) (dark_hour 0) {| th_TMT1 := 5; th_ti := 18 |} qh qc tm ta) /\
  exists qh qc tm ta, hour_gives p i' (airy_sched 20 26) (dark_hour 0) {| th_TMT1 := 5; th_ti := 18 |} qh qc tm ta.
Proof. exact C109_hour_case_l. Qed.
(** The same in a windy year of 15 degrees. *)
Example C109_case : let p := still_office in let q := with_n50 p 4 in
  physical p /\ ordered_setpoints p /\ mass_slow p /\ sources_ok p /\ daylit p /\ recovery_ok p /\ leakier p 4 /\ timetable_of p office_hours /\ encloses 18 22 p /\
  (forall w, In w windy_year -> steady_leak p 18 22 w /\ all_nonneg (we_sol w)) /\ never_warmer 15 windy_year /\
  15 <= ht_tempOcc (pa_heating p) /\ 15 <= ht_tempUnocc (pa_heating p) /\
  (exists raw r, simulateRaw (map_params Fin q) (map (map_weather Fin) windy_year) no_ratios = Ok (raw, r)) /\
  exists raw r, simulateRaw (map_params Fin p) (map (map_weather Fin) windy_year) no_ratios = Ok (raw, r).
Proof. exact C109_year_case_l. Qed.

(** In an hour warmer outside than the set-point of a cooled-out building it is false: leakage brings in heat. *)
Theorem C109_refuted : exists p n i i' sc w th qh qc tm ta qh' qc' tm' ta', let q := with_n50 p n in
  physical p /\ mass_slow p /\ sources_ok p /\ daylit p /\ recovery_ok p /\ leakier p n /\
  initialize (map_params Fin q) no_ratios = Ok i /\ initialize (map_params Fin p) no_ratios = Ok i' /\
  0 <= sc_vent sc /\ 0 <= sc_intEquip sc /\ 0 <= sc_intLight sc /\ all_nonneg (we_sol w) /\ sc_heatSP sc <= sc_coolSP sc /\
  hour_gives q i sc w th qh qc tm ta /\ hour_gives p i' sc w th qh' qc' tm' ta' /\ qh < qh'.
Proof. exact C109_refuted_l. Qed.
Print Assumptions C109_refuted.
