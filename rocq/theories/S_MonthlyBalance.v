(** Gains, air flows, appliances and fans of a month, written out from the building's data.
    Independent of how the monthly engine computes them. *)
From Coq Require Import Reals List ZArith Bool Arith.
From Verif Require Import M_Params M_Monthly S_Physical S_Schedule S_MonthlySound.
Import ListNotations.
Open Scope R_scope.

(** *** Solar energy.  Surface [k]: eight directions, then the roof. *)
(** Share of radiation passing the shading device with code 1, 2 or 3 (decimals of the code are dropped). *)
Definition shading_share (code : R) : R := if Rlt_dec code 2 then 1 / 2 else if Rlt_dec code 3 then 7 / 20 else 1.
(** Share of the sky seen by the surface. *)
Definition sky_view (k : nat) : R := if (k <? 8)%nat then 1 / 2 else 1.
(** Mean radiation on surface [k] in month [i], W/m2. *)
Definition radiation (w : mweather R) (i k : nat) : R :=
  if (k <? 8)%nat then nth k (nth i (mw_msolar w) []) 0 else nth i (mw_mEgh w) 0.
(** Through the window [k]: frame and shading cut the radiation on it, W. *)
Definition window_sun (s : structure_t R) (k : nat) (rad : R) : R :=
  nth k (st_windowArea s) 0 * (1 - st_win_ff s) * nth k (st_windowSHGC s) 0 * st_win_F_W s * shading_share (nth k (st_windowSDF s) 0) * nth k (st_windowSCF s) 0 * rad.
(** Through the wall [k]: absorbed radiation less what it emits to a sky 11 K colder (5 W/m2K times emissivity). *)
Definition wall_sun (s : structure_t R) (k : nat) (rad : R) : R :=
  st_R_sc_ext s * nth k (st_wallU s) 0 * nth k (st_wallArea s) 0 * (nth k (st_wallAbsorption s) 0 * rad - sky_view k * (5 * nth k (st_wallEmissivity s) 0) * 11).
(** Energy of month [i] in MJ. *)
Definition solar_gain (s : structure_t R) (w : mweather R) (i : nat) : R :=
  month_megaseconds i * Rsum (map (fun k => window_sun s k (radiation w i k) + wall_sun s k (radiation w i k)) (seq 0 9)).

(** *** Internal gains *)
(** Share of the hours of a week that are working hours. *)
Definition occupied_share (po : population_t R) : R := day_length po * week_days po / 168.
(** People and appliances, W/m2. *)
Definition gain_occupied (p : params_t R) : R :=
  po_heatGainPerPerson (pa_population p) / po_densityOcc (pa_population p) + bu_elecApplianceOcc (pa_building p) + bu_gasApplianceOcc (pa_building p).
Definition gain_unoccupied (p : params_t R) : R :=
  po_heatGainPerPerson (pa_population p) / po_densityUnocc (pa_population p) + bu_elecApplianceUnocc (pa_building p) + bu_gasApplianceUnocc (pa_building p).
(** Mean over the year in W, with [light] kWh/m2 of interior lighting a year of 8760 hours. *)
Definition internal_gain (p : params_t R) (light : R) : R :=
  let share := occupied_share (pa_population p) in
  st_floorArea (pa_structure p) * (share * gain_occupied p + (1 - share) * gain_unoccupied p + light * 1000 / 8760).

(** *** Air flows per m2 of floor *)
Definition power0 (x y : R) : R := if Rlt_dec 0 x then Rpower x y else 0.
(** Supply, and its excess over the exhaust. *)
Definition supply_flow (p : params_t R) : R := ve_supplyRate (pa_ventilation p) / st_floorArea (pa_structure p) / (36 / 10).
Definition excess_flow (p : params_t R) : R := ve_supplyDifference (pa_ventilation p) / st_floorArea (pa_structure p) / (36 / 10).
(** Leakage driven by the temperature difference between outdoors [te] and indoors [t], at least 1/1000. *)
Definition stack_flow (p : params_t R) (te t : R) : R :=
  let ve := pa_ventilation p in
  Rmax (power0 (Rabs (te - t) * (ve_zone_frac ve * Rmax (1 / 10) (st_buildingHeight (pa_structure p)))) (ve_stack_exp ve) * ve_stack_coeff ve * st_infiltrationRate (pa_structure p)) (1 / 1000).
(** Leakage driven by wind of speed [v]. *)
Definition wind_flow (p : params_t R) (v : R) : R :=
  let ve := pa_ventilation p in
  power0 (v * v * ve_dCp ve * pa_terrain p) (ve_wind_exp ve) * ve_wind_coeff ve * st_infiltrationRate (pa_structure p).
(** Both together, and what the exhaust takes beyond the supply. *)
Definition leakage (p : params_t R) (te v t : R) : R :=
  let s := stack_flow p te t in let w := wind_flow p v in
  Rmax s w + 14 / 100 * s * w / st_infiltrationRate (pa_structure p) + Rmax 0 (- excess_flow p).
(** Share of the time the fans run: always, in working hours, or in proportion to people. *)
Definition running_share (p : params_t R) : R :=
  let share := occupied_share (pa_population p) in
  if (ve_vent_rate_flag (pa_ventilation p) =? 0)%Z then 1 else if (ve_vent_rate_flag (pa_ventilation p) =? 1)%Z then share
  else share + (1 - share) * (po_densityOcc (pa_population p) / po_densityUnocc (pa_population p)).
(** Fresh air moved by fans that is not preheated by recovery; type 3 is natural ventilation. *)
Definition fan_flow (p : params_t R) : R :=
  let ve := pa_ventilation p in
  if Req_EM_T (ve_type ve) 3 then 0
  else running_share p * supply_flow p * (1 - ve_exhaustAirRecirculated ve) * (1 - ve_heatRecoveryEfficiency ve).
(** W/K per m2 of floor; [ph_rhoCpAir] is in MJ/m3K. *)
Definition ventilation_coefficient (p : params_t R) (te v t : R) : R :=
  (leakage p te v t + fan_flow p) * ph_rhoCpAir (pa_phys p) * 1000000 / 3600.

(** *** Appliances: kWh per m2 of a month of [hours] with [a] W/m2 in working hours and [b] outside them *)
Definition appliance_kWh (p : params_t R) (a b hours : R) : R :=
  let share := occupied_share (pa_population p) in (a * share + b * (1 - share)) * hours / 1000.

(** *** Fans: kWh per m2 of month [i] with needs [qh] and [qc] MJ and room temperatures [t] and [tc] *)
(** Litres of air moved: what brings the heat and takes it away at the supply temperatures, at least the supply rate in working hours. *)
Definition fan_air (p : params_t R) (t tc qh qc : R) (i : nat) (tiny : R) : R :=
  let rho := ph_rhoCpAir (pa_phys p) in
  Rmax (qh / (rho * (ht_tempOcc (pa_heating p) + ht_dT_supp (pa_heating p) - t) + tiny) + qc / (rho * (tc - (cl_tempOcc (pa_cooling p) - cl_dT_supp (pa_cooling p))) + tiny))
       (ve_supplyRate (pa_ventilation p) * occupied_share (pa_population p) * (month_megaseconds i * 1000)).
Definition fan_kWh (p : params_t R) (air : R) : R :=
  air * (ve_fanPower (pa_ventilation p) * ve_fanControlFactor (pa_ventilation p) / 1000) / st_floorArea (pa_structure p) / (36 / 10).
