(** C87: monthly and yearly energy of equipment and exterior lights is power times hours. *)
From Coq Require Import Reals List ZArith.
From Verif Require Import Base Num Xr M_Params M_Hourly M_Map S_Calendar S_Physical S_Results S_Year S_Totals E_SmallOffice.
From Verif Require Import L_Office L_Office2 L_Totals.
Import ListNotations.

Theorem C87_months : forall p tt ws r0 rows r, physical p -> timetable_of p tt -> Z.of_nat (length ws) = 8760%Z ->
  simulate (map_params Fin p) (map (map_weather Fin) ws) (map_ratios Fin r0) true = Ok (rows, r) ->
  is_series elec_int_equip rows (map (fun m => Fin (equipment_kWh p tt (hours_in m))) (zrange 1 12)) /\
  is_series elec_ext_equip rows (map (fun m => Fin (ext_equipment_kWh p (hours_in m))) (zrange 1 12)) /\
  is_series elec_ext_lights rows (map (fun m => Fin (ext_lights_kWh p (month_part m ws))) (zrange 1 12)).
Proof. intros p tt ws r0 rows r HP HT HL H. exact (C87_months_l p tt ws r0 rows r HP HT HL H). Qed.
Print Assumptions C87_months.

Theorem C87_year : forall p tt ws r0 rows r, physical p -> timetable_of p tt -> Z.of_nat (length ws) = 8760%Z ->
  simulate (map_params Fin p) (map (map_weather Fin) ws) (map_ratios Fin r0) false = Ok (rows, r) ->
  exists equip ext lights, is_series elec_int_equip rows equip /\ is_series elec_ext_equip rows ext /\ is_series elec_ext_lights rows lights /\
    accumulate equip = Fin (equipment_kWh p tt year_hours) /\ accumulate ext = Fin (ext_equipment_kWh p year_hours) /\
    accumulate lights = Fin (ext_lights_kWh p ws).
Proof. intros p tt ws r0 rows r HP HT HL H. exact (C87_year_l p tt ws r0 rows r HP HT HL H). Qed.
Print Assumptions C87_year.

(** The number of occupied hours of the year follows from the four schedule numbers. *)
Theorem C87_hours : forall tt, clock_timetable tt -> number (occupied tt) year_hours = IZR (occupied_year tt) /\
  number (fun k => negb (occupied tt k)) year_hours = IZR (8760 - occupied_year tt).
Proof. exact C87_hours_l. Qed.
Print Assumptions C87_hours.

(** The small office, open from 8 to 17 on weekdays 1 to 5, in a year of constant temperature. *)
Example C87_case : forall (t : R) agg, physical office /\ timetable_of office office_hours /\ clock_timetable office_hours /\
  occupied_year office_hours = 2600%Z /\ Z.of_nat (length (constant_year 8760 t)) = 8760%Z /\
  exists rows r, simulate (map_params Fin office) (map (map_weather Fin) (constant_year 8760 t)) (map_ratios Fin no_ratios) agg = Ok (rows, r).
Proof. exact C87_case_l. Qed.
