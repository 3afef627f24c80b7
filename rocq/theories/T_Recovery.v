(** C108: the same building with better heat recovery and warmer preheating of the ventilation air. *)
From Coq Require Import Reals Lra ZArith List.
From Verif Require Import Base Num Xr M_Params M_Hourly M_Map S_Physical S_Network S_Year S_HourSpec S_Balance S_Compare S_YearCompare S_Recovery
  L_Office2 L_HourlyThm4 L_YearCompare3 L_Recovery.
Open Scope R_scope.

(** An hour of at most 20 degrees outside: with more recovery and preheating the building ends no colder, needs no more heating and no less cooling. *)
Theorem C108_hour_partial : forall p e t i i' sc w th th' qh qc tm ta qh' qc' tm' ta', let q := with_recovery p e t in
  physical p -> mass_slow p -> better_recovery p e t ->
  initialize (map_params Fin p) no_ratios = Ok i -> initialize (map_params Fin q) no_ratios = Ok i' ->
  0 <= sc_vent sc -> sc_heatSP sc <= sc_coolSP sc -> we_temp w <= 20 -> th_TMT1 th <= th_TMT1 th' -> th_ti th = th_ti th' ->
  hour_gives p i sc w th qh qc tm ta -> hour_gives q i' sc w th' qh' qc' tm' ta' ->
  ta <= ta' /\ tm <= tm' /\ qh' <= qh /\ qc <= qc'.
Proof. exact C108_hour_l. Qed.
Print Assumptions C108_hour_partial.

(** Every hour of a year of at most 20 degrees. *)
Theorem C108_year_partial : forall p e t lo hi tt ws raw raw' r r', let q := with_recovery p e t in
  physical p -> ordered_setpoints p -> mass_slow p -> better_recovery p e t -> timetable_of p tt -> encloses lo hi p ->
  (forall w, In w ws -> steady_leak p lo hi w /\ we_temp w <= 20) ->
  simulateRaw (map_params Fin p) (map (map_weather Fin) ws) no_ratios = Ok (raw, r) ->
  simulateRaw (map_params Fin q) (map (map_weather Fin) ws) no_ratios = Ok (raw', r') ->
  forall k h h', nth_error raw k = Some h -> nth_error raw' k = Some h' ->
  exists qh qc qh' qc', hr_Qneed_ht h = Fin qh /\ hr_Qneed_cl h = Fin qc /\ hr_Qneed_ht h' = Fin qh' /\ hr_Qneed_cl h' = Fin qc' /\
    qh' <= qh /\ qc <= qc'.
Proof. exact C108_year_l. Qed.
Print Assumptions C108_year_partial.

(** The ventilated office at 0 degrees, without and with recovery. *)
Example C108_hour_case : let p := still_office in let q := with_recovery p 0.5 10 in
  physical p /\ mass_slow p /\ better_recovery p 0.5 10 /\ we_temp (dark_hour 0) <= 20 /\
  exists i i', initialize (map_params Fin p) no_ratios = Ok i /\ initialize (map_params Fin q) no_ratios = Ok i' /\
  (exists qh qc tm ta, hour_gives p i (airy_sched 20 26) (dark_hour 0) {| th_TMT1 := 15; th_ti := 18 |} qh qc tm ta) /\
  exists qh qc tm ta, hour_gives q i' (airy_sched 20 26) (dark_hour 0) {| th_TMT1 := 15; th_ti := 18 |} qh qc tm ta.
Proof. exact C108_hour_case_l. Qed.
(** The office in a windy year of 15 degrees. *)
Example C108_case : let p := still_office in let q := with_recovery p 0.5 10 in
  physical p /\ ordered_setpoints p /\ mass_slow p /\ better_recovery p 0.5 10 /\ timetable_of p office_hours /\ encloses 18 22 p /\
  (forall w, In w windy_year -> steady_leak p 18 22 w /\ we_temp w <= 20) /\
  (exists raw r, simulateRaw (map_params Fin p) (map (map_weather Fin) windy_year) no_ratios = Ok (raw, r)) /\
  exists raw r, simulateRaw (map_params Fin q) (map (map_weather Fin) windy_year) no_ratios = Ok (raw, r).
Proof. exact C108_case_l. Qed.

(** Above 20 degrees it is false: recovery is reckoned against a room of 20 degrees whatever the set-point, so it cools
    air of 30 degrees on its way into a room heated to 31. *)
Theorem C108_refuted : exists p e t i i' sc w th qh qc tm ta qh' qc' tm' ta', let q := with_recovery p e t in
  physical p /\ mass_slow p /\ better_recovery p e t /\ e <= 1 /\
  initialize (map_params Fin p) no_ratios = Ok i /\ initialize (map_params Fin q) no_ratios = Ok i' /\
  0 <= sc_vent sc /\ sc_heatSP sc <= sc_coolSP sc /\
  hour_gives p i sc w th qh qc tm ta /\ hour_gives q i' sc w th qh' qc' tm' ta' /\ qh < qh'.
Proof. exact C108_refuted_l. Qed.
Print Assumptions C108_refuted.
