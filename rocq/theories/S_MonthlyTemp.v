(** Room temperatures of a month in a week of working days and a weekend, written out from the building's data.
    Independent of how the monthly engine computes them. *)
From Coq Require Import Reals List ZArith Bool.
From Verif Require Import M_Params M_Monthly S_Physical S_Schedule S_Monthly S_MonthlySound S_MonthlyHeat S_MonthlyBalance.
Import ListNotations.
Open Scope R_scope.

(** *** A room without heating or cooling *)
(** [f] is the temperature after so many hours of a room with time constant [tau] hours that tends to [eq] (Newton's law). *)
Definition floats (tau eq : R) (f : R -> R) : Prop := forall x, derivable_pt_lim f x ((eq - f x) / tau).
(** Temperature after [hours] from [s], and its mean over them; these follow from Newton's law (C32_law, C32_mean_law). *)
Definition after (tau eq hours s : R) : R := eq + (s - eq) * exp (- (hours / tau)).
Definition mean_over (tau eq hours s : R) : R := eq + (s - eq) * (tau / hours) * (1 - exp (- (hours / tau))).

(** *** The week *)
(** A period: hours it lasts, temperature outdoors, share of the week's radiation, share of the week's hours. *)
Record span := mkSpan { sp_hours : R; sp_out : R; sp_sun : R; sp_part : R }.
Section Week.
Context (p : params_t R) (w : mweather R) (i : nat).
Let h : R := day_length (pa_population p).
Let d : R := week_days (pa_population p).
Let air : list R := nth i (mw_mhdbt w) [].
Let sun : list R := nth i (mw_mhEgh w) [].
Definition week_night : span := mkSpan (24 - h) (night_mean h air) (sun_week_night h d sun / sun_week h sun) ((24 - h) * (d - 1) / 168).
Definition weekend_day : span := mkSpan h (day_mean h air) (sun_weekend_day h d sun / sun_week h sun) (h * (7 - d) / 168).
Definition weekend_night : span := mkSpan (24 - h) (night_mean h air) (sun_weekend_night h d sun / sun_week h sun) ((24 - h) * (8 - d) / 168).
(** From the evening of the last working day to the next working day, for a weekend of two days. *)
Definition weekend_spans : list span := [week_night; weekend_day; weekend_night; weekend_day; weekend_night].

(** Gains of people, appliances and lighting outside working hours, W/m2. *)
Definition idle_gain : R :=
  gain_unoccupied p + li_densityUnocc (pa_lighting p) * (8760 - open_hours p * open_days p) / 8760 / (1 - occupied_share (pa_population p)).
Definition room_loss : R := envelope_UA (pa_structure p) + ve_H_ve (pa_ventilation p).
Definition room_tau : R := heat_capacity (pa_structure p) / room_loss / 3600.
(** Temperature the room tends to in the period: outdoors plus gains over losses. *)
Definition target (q : span) : R :=
  sp_out q + (st_floorArea (pa_structure p) * idle_gain + solar_gain (pa_structure p) w i * sp_sun q / (month_megaseconds i * sp_part q)) / room_loss.
(** Temperatures at the beginning of each period of a room left alone from [s] on. *)
Fixpoint drift (s : R) (qs : list span) : list R :=
  match qs with [] => [] | q :: t => s :: drift (after room_tau (target q) (sp_hours q) s) t end.
(** Mean temperature of a period that begins at [s], not below [u]. *)
Definition held_mean (u s : R) (q : span) : R := Rmax (mean_over room_tau (target q) (sp_hours q) s) u.
(** The five means: the first period begins at [s0], the others where a room left alone from [c] would be, not below [u]. *)
Definition span_means (s0 c u : R) : list R :=
  match combine (drift c weekend_spans) weekend_spans with
  | [] => []
  | (_, q0) :: rest => held_mean u s0 q0 :: map (fun sq => held_mean u (Rmax (fst sq) u) (snd sq)) rest
  end.
(** Set-point [c] in working hours, the mean number [night] in week nights and the mean of all five in weekends; not above [c]. *)
Definition week_temperature (night : nat) (s0 c u : R) : R :=
  let means := span_means s0 c u in
  Rmin (c * occupied_share (pa_population p) + nth night means c * sp_part week_night + Rsum means / 5 * (1 - occupied_share (pa_population p) - sp_part week_night)) c.
End Week.

(** *** Buildings and years *)
(** Working hours within a day, more than one and fewer than seven working days, radiation that is not negative. *)
Record week_case (p : params_t R) (w : mweather R) : Prop := {
  wc_sched : day_schedule p; wc_days : 1 < week_days (pa_population p) < 7; wc_sun : forall row, In row (mw_mhEgh w) -> all_nonneg row }.
(** The same building with another heating set-point outside working hours. *)
Definition set_heat_setback (p : params_t R) (x : R) : params_t R :=
  let h := pa_heating p in
  mkParams (pa_structure p)
    (mkHeating (ht_tempOcc h) x (ht_hvacLossFactor h) (ht_efficiency h) (ht_energyType h) (ht_pumpControlReduction h) (ht_hotWaterDemand h) (ht_hotWaterDistributionEfficiency h)
       (ht_hotWaterSystemEfficiency h) (ht_hotWaterEnergyType h) (ht_hotcoldWasteFactor h) (ht_forcedAir h) (ht_dT_supp h) (ht_E_pumps h) (ht_T_ctrl_flag h) (ht_a_H0 h) (ht_tau_H0 h)
       (ht_DH_YesNo h) (ht_eta_DH_network h) (ht_eta_DH_sys h) (ht_frac_DH_free h) (ht_dhw_tset h) (ht_dhw_tsupply h))
    (pa_cooling p) (pa_ventilation p) (pa_lighting p) (pa_building p) (pa_population p) (pa_settings p) (pa_phys p) (pa_terrain p).
(** Numbers below 10 to the 50; days and nights longer than 10 to the -50 hours. *)
Definition huge : R := 10 ^ 50.
Record moderate (p : params_t R) (w : mweather R) : Prop := {
  md_loss : room_loss p <= huge;
  md_tau : room_tau p <= huge * day_length (pa_population p);
  md_night : 1 <= huge * (24 - day_length (pa_population p));
  md_occ : Rabs (ht_tempOcc (pa_heating p)) <= huge;
  md_back : Rabs (ht_tempUnocc (pa_heating p)) <= huge;
  md_air : forall i, (i < 12)%nat -> - huge <= day_mean (day_length (pa_population p)) (nth i (mw_mhdbt w) []) }.
