(** C03, C04, C08, C12, C14, C15, C16: whole years of the hourly engine. *)
From Coq Require Import Reals Lra ZArith List.
From Verif Require Import Base Num Xr M_Params M_Hourly M_Map E_SmallOffice S_RC S_Physical S_Network S_Year S_HourSpec S_Results S_Edit
  L_HourlyThm L_HourlyThm2 L_HourlyThm3 L_HourlyThm4 L_HourlyAgain L_Office L_Office2.
Import ListNotations.
Open Scope R_scope.

Theorem C03_year : forall p ws r0 raw r, physical p ->
  simulateRaw (map_params Fin p) (map (map_weather Fin) ws) (map_ratios Fin r0) = Ok (raw, r) ->
  Forall needs_ok raw.
Proof. exact C03_run_l. Qed.
Print Assumptions C03_year.

(** A simulation from a new model object follows the ISO trajectory from 20 degrees, hour by hour. *)
Theorem C04_year : forall p tt ws raw r, physical p -> ordered_setpoints p -> timetable_of p tt ->
  simulateRaw (map_params Fin p) (map (map_weather Fin) ws) no_ratios = Ok (raw, r) ->
  exists needs, iso_hours p tt 0 20 20 ws needs /\
    map (fun h => (hr_Qneed_ht h, hr_Qneed_cl h)) raw = map (fun q => (Fin (fst q), Fin (snd q))) needs.
Proof. exact C04_year_l. Qed.
Print Assumptions C04_year.
(** and there is only one such trajectory. *)
Theorem C04_year_unique : forall p tt, physical p -> forall k tm ta ws n1, iso_hours p tt k tm ta ws n1 ->
  forall n2, iso_hours p tt k tm ta ws n2 -> length n1 = length n2 -> n1 = n2.
Proof. exact iso_hours_unique. Qed.
Print Assumptions C04_year_unique.
Example year_case : physical office /\ ordered_setpoints office /\ timetable_of office office_hours /\ daylit office /\
  forall t, exists raw r, simulateRaw (map_params Fin office) (map (map_weather Fin) (constant_year 8760 t)) no_ratios = Ok (raw, r).
Proof. exact (conj office_physical (conj office_ordered (conj office_timetable (conj office_daylit office_raw)))). Qed.

Theorem C08_auxiliary : forall p tt ws r0 raw r, physical p -> timetable_of p tt ->
  simulateRaw (map_params Fin p) (map (map_weather Fin) ws) (map_ratios Fin r0) = Ok (raw, r) ->
  forall k h, nth_error raw k = Some h -> exists w, nth_error ws k = Some w /\ aux_spec p tt (Z.of_nat k) w h.
Proof. exact C08_run_l. Qed.
Print Assumptions C08_auxiliary.

Theorem C12_bounds : forall p tt ws raw r, physical p -> daylit p -> timetable_of p tt -> (forall w, In w ws -> all_nonneg (we_sol w)) ->
  simulateRaw (map_params Fin p) (map (map_weather Fin) ws) no_ratios = Ok (raw, r) ->
  forall k h, nth_error raw k = Some h -> 0 <= lights_at p tt (Z.of_nat k) ->
  exists v, hr_illum h = Fin v /\ 0 <= v <= lights_at p tt (Z.of_nat k).
Proof. exact C12_run_l. Qed.
Print Assumptions C12_bounds.

(** Energy charged for heating and cooling in each hour, kWh per m2.  [heat_factor], [cool_factor] are
    (1 + loss + waste / demand share) / efficiency. *)
Theorem C14_distribution : forall p ws r0 rows r, physical p -> plant_ok p ->
  simulate (map_params Fin p) (map (map_weather Fin) ws) (map_ratios Fin r0) false = Ok (rows, r) ->
  exists raw needs, simulateRaw (map_params Fin p) (map (map_weather Fin) ws) (map_ratios Fin r0) = Ok (raw, r) /\
    map hr_Qneed_ht raw = map (fun q => Fin (fst q)) needs /\ map hr_Qneed_cl raw = map (fun q => Fin (snd q)) needs /\
    Forall (fun q => 0 <= fst q /\ 0 <= snd q) needs /\
    let H := Rsum (map fst needs) in let C := Rsum (map snd needs) in
    0 < C + H ->
    is_series elec_cooling rows (map (fun q => Fin (snd q * cool_factor p H C / 1000)) needs) /\
    is_series (if Req_EM_T (ht_energyType (pa_heating p)) 1 then elec_heating else gas_heating) rows
      (map (fun q => Fin (fst q * heat_factor p H C / 1000)) needs).
Proof. exact C14_l. Qed.
Print Assumptions C14_distribution.
Theorem C14_losses_add : forall p, plant_ok p -> forall H C,
  (ht_efficiency (pa_heating p) <= 1 -> 1 <= heat_factor p H C) /\ (cl_cop (pa_cooling p) <= 1 -> 1 <= cool_factor p H C).
Proof. exact losses_add. Qed.
Print Assumptions C14_losses_add.
Example C14_case : physical office /\ plant_ok office.
Proof. split; [exact office_physical|exact office_plant]. Qed.

(** With some heating or cooling need in the year every entry of the table is a finite number.
    [band_state p t]: the air can be at [t] at the start of an hour. *)
Theorem C15_finite_partial : forall p ws r0 agg rows r,
  physical p -> ordered_setpoints p -> plant_ok p -> (forall t, band_state p t -> fan_defined p t) ->
  simulate (map_params Fin p) (map (map_weather Fin) ws) (map_ratios Fin r0) agg = Ok (rows, r) ->
  (exists raw h q, simulateRaw (map_params Fin p) (map (map_weather Fin) ws) (map_ratios Fin r0) = Ok (raw, r) /\
     In h raw /\ 0 < q /\ (hr_Qneed_ht h = Fin q \/ hr_Qneed_cl h = Fin q)) ->
  forall row x, In row rows -> In x row -> finite x.
Proof. exact C15_l. Qed.
Print Assumptions C15_finite_partial.
(** A year without needs: NaN in the table, hourly and monthly, although every other condition holds. *)
Theorem C15_no_need_refuted : forall agg : bool, exists p ws rows r,
  physical p /\ ordered_setpoints p /\ plant_ok p /\ (forall t, band_state p t -> fan_defined p t) /\
  simulate (map_params Fin p) (map (map_weather Fin) ws) no_ratios agg = Ok (rows, r) /\
  exists row, In row rows /\ nth_error row elec_cooling = Some NaN.
Proof. exact C15_nan_l. Qed.
Print Assumptions C15_no_need_refuted.
Example C15_case : physical still_office /\ ordered_setpoints still_office /\ plant_ok still_office /\
  (forall t, band_state still_office t -> fan_defined still_office t).
Proof. exact (conj still_physical (conj still_ordered (conj still_plant still_fan))). Qed.

(** Any history of simulations with the same structure leaves later results as on a new object; every number type. *)
Theorem C16_repeatable : forall (T : Type) (N : Num T) (s : structure_t T) r (p : params_t T) ws agg,
  reached s r -> pa_structure p = s -> rows_of (simulate p ws r agg) = rows_of (simulate p ws no_ratios agg).
Proof. exact @C16_l. Qed.
Print Assumptions C16_repeatable.
(** After setStructure the results differ from those of a new object. *)
Theorem C16_setStructure_refuted : exists p p' ws r rows1 r1 rows2 r2,
  physical p /\ physical p' /\ p' = with_structure p (pa_structure p') /\
  (exists rows, simulate (map_params Fin p) (map (map_weather Fin) ws) no_ratios false = Ok (rows, r)) /\
  simulate (map_params Fin p') (map (map_weather Fin) ws) r false = Ok (rows1, r1) /\
  simulate (map_params Fin p') (map (map_weather Fin) ws) no_ratios false = Ok (rows2, r2) /\ rows1 <> rows2.
Proof. exact C16_stale_l. Qed.
Print Assumptions C16_setStructure_refuted.
Example C16_case : exists r, r <> no_ratios /\ reached (pa_structure (@smallOffice xr xr_num)) r.
Proof. exact office_reached. Qed.
