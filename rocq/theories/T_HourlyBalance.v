(** C78, C79: the heat balance of a simulated year, and years that need no cooling or no heating. *)
From Coq Require Import Reals Lra ZArith List.
From Verif Require Import Base Num Xr M_Params M_Hourly M_Map S_RC S_Physical S_Network S_Year S_HourSpec S_Balance.
From Verif Require Import L_HourlyThm4 L_Office L_Office2 L_HourlyBalance L_HourlyBalance2.
Import ListNotations.
Open Scope R_scope.

(** After any number of hours from the start of the year: heat supplied - heat extracted + gains -
    losses is the heat stored in the mass, which starts at 20 degrees.  The temperatures are those
    of the ISO trajectory, and the supplied and extracted heat are the reported needs. *)
Theorem C78_balance : forall p tt ws raw r, physical p -> ordered_setpoints p -> timetable_of p tt ->
  simulateRaw (map_params Fin p) (map (map_weather Fin) ws) no_ratios = Ok (raw, r) ->
  exists l, accounts p tt 0 20 20 ws l /\
    map (fun h => (hr_Qneed_ht h, hr_Qneed_cl h)) raw = map (fun a => (Fin (ac_heat a), Fin (ac_cool a))) l /\
    forall n, Rsum (map (fun a => ac_heat a - ac_cool a + gained a - lost a) (firstn n l))
              = sp_capacity p / 3.6 * (mass_after 20 (firstn n l) - 20).
Proof. exact C78_balance_l. Qed.
Print Assumptions C78_balance.

(** The gains of an hour are the solar and internal gains, less the share that leaves at once
    through the windows: nothing is counted twice and nothing is dropped. *)
Theorem C78_gains : forall p flow equip lights wind tout sol tin, physical p ->
  let x := hour_rc p flow equip lights wind tout sol tin in
  rc_phi_ia x + rc_phi_st x + rc_phi_m x
  = sp_solar p sol + sp_internal p equip lights sol - window_share p (sp_solar p sol) (sp_internal p equip lights sol).
Proof. exact C78_gains_l. Qed.
Print Assumptions C78_gains.

(** A dark year that is never warmer than the cooling set-points, in a building without sources. *)
Theorem C79_no_cooling : forall p tt b ws raw r, physical p -> mass_slow p -> recovery_ok p -> no_sources p -> band_contains p b ->
  ve_preheat (pa_ventilation p) <= b -> 20 <= b -> timetable_of p tt ->
  (forall w, In w ws -> we_temp w <= b /\ Forall (eq 0) (we_sol w)) ->
  simulateRaw (map_params Fin p) (map (map_weather Fin) ws) no_ratios = Ok (raw, r) ->
  Forall (fun h => hr_Qneed_cl h = Fin 0) raw.
Proof. exact C79_no_cooling_l. Qed.
Print Assumptions C79_no_cooling.

(** A year that is never colder than the heating set-points, whatever the sun and the sources. *)
Theorem C79_no_heating : forall p tt a ws raw r, physical p -> mass_slow p -> recovery_ok p -> sources_ok p -> daylit p -> band_contains p a ->
  a <= 20 -> timetable_of p tt ->
  (forall w, In w ws -> a <= we_temp w /\ all_nonneg (we_sol w)) ->
  simulateRaw (map_params Fin p) (map (map_weather Fin) ws) no_ratios = Ok (raw, r) ->
  Forall (fun h => hr_Qneed_ht h = Fin 0) raw.
Proof. exact C79_no_heating_l. Qed.
Print Assumptions C79_no_heating.

(** The hypotheses: the office with set-points 18 and 22. *)
Example C79_case : physical still_office /\ mass_slow still_office /\ recovery_ok still_office /\ no_sources still_office /\
  sources_ok still_office /\ daylit still_office /\ band_contains still_office 20 /\ ve_preheat (pa_ventilation still_office) <= 20 /\
  timetable_of still_office office_hours /\ ordered_setpoints still_office /\
  forall t, exists raw r, simulateRaw (map_params Fin still_office) (map (map_weather Fin) (constant_year 8760 t)) no_ratios = Ok (raw, r).
Proof. exact C79_case_l. Qed.
