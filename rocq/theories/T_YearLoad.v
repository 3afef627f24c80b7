(** C99, C100: steady weather and the design load. *)
From Coq Require Import Reals Lra ZArith List.
From Verif Require Import Base Num Xr M_Params M_Hourly M_Map S_Physical S_Network S_Year S_HourSpec S_Balance S_Compare S_YearCompare S_YearClimate S_YearStable S_YearLoad
  L_Office2 L_HourlyThm4 L_YearCompare3 L_YearLoad L_YearLoad2.
Import ListNotations.
Open Scope R_scope.

(** C99: in steady dark weather the heating need tends to the steady-state heat loss. *)
Theorem C99_settles : forall p lo hi tt w inside flow N raw r,
  physical p -> ordered_setpoints p -> mass_slow p -> timetable_of p tt -> encloses lo hi p -> constant_use p tt inside flow -> no_sources p ->
  Forall (eq 0) (we_sol w) -> steady_leak p lo hi w -> 0 <= steady_loss p flow w inside ->
  simulateRaw (map_params Fin p) (map (map_weather Fin) (repeat w N)) no_ratios = Ok (raw, r) ->
  0 < memory p < 1 /\
  forall n h, nth_error raw n = Some h -> exists qh qc, hr_Qneed_ht h = Fin qh /\ hr_Qneed_cl h = Fin qc /\
    let b := sp_is p * memory p ^ n * Rabs (20 - steady_mass p w inside) in
    Rabs (qh - steady_loss p flow w inside) <= b /\ qc <= b.
Proof. exact C99_l. Qed.
Print Assumptions C99_settles.

(** The office without fans, kept at 18 degrees in a windy year of 15 degrees. *)
Example C99_case : let p := shut_office in
  physical p /\ ordered_setpoints p /\ mass_slow p /\ timetable_of p office_hours /\ encloses 18 22 p /\ constant_use p office_hours 18 0 /\ no_sources p /\
  Forall (eq 0) (we_sol windy_hour) /\ steady_leak p 18 22 windy_hour /\ 0 <= steady_loss p 0 windy_hour 18 /\
  exists raw r, simulateRaw (map_params Fin p) (map (map_weather Fin) (repeat windy_hour (Z.to_nat 8760))) no_ratios = Ok (raw, r).
Proof. exact C99_case_l. Qed.

(** C100: no hour needs more heating than the design load. *)
Theorem C100_design_load : forall p lo hi tt V out base ws raw r,
  physical p -> ordered_setpoints p -> mass_slow p -> recovery_ok p -> sources_ok p -> daylit p -> timetable_of p tt -> encloses lo hi p ->
  out <= base <= 20 -> base <= ht_tempOcc (pa_heating p) -> base <= ht_tempUnocc (pa_heating p) ->
  (forall w, In w ws -> out <= we_temp w /\ all_nonneg (we_sol w) /\ fresh_air_below p lo hi V w) ->
  simulateRaw (map_params Fin p) (map (map_weather Fin) ws) no_ratios = Ok (raw, r) ->
  forall k h, nth_error raw k = Some h -> exists qh, hr_Qneed_ht h = Fin qh /\ qh <= design_load p V out base (heat_at p tt (Z.of_nat k)).
Proof. exact C100_l. Qed.
Print Assumptions C100_design_load.

(** The office in a windy year of 15 degrees. *)
Example C100_case : let p := still_office in let V := sp_wind p 14 + sp_supply p (ve_supplyRate (pa_ventilation p)) in
  physical p /\ ordered_setpoints p /\ mass_slow p /\ recovery_ok p /\ sources_ok p /\ daylit p /\ timetable_of p office_hours /\ encloses 18 22 p /\
  18 <= ht_tempOcc (pa_heating p) /\ 18 <= ht_tempUnocc (pa_heating p) /\
  (forall w, In w windy_year -> 15 <= we_temp w /\ all_nonneg (we_sol w) /\ fresh_air_below p 18 22 V w) /\
  exists raw r, simulateRaw (map_params Fin p) (map (map_weather Fin) windy_year) no_ratios = Ok (raw, r).
Proof. exact C100_case_l. Qed.
