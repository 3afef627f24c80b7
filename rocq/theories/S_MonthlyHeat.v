(** What the monthly heat balance should be.  Independent of how the engine computes it. *)
From Coq Require Import Reals List ZArith Bool.
From Verif Require Import Num Xr M_Params M_Map M_Monthly S_Physical S_Schedule S_MonthlySound.
Import ListNotations.
Open Scope R_scope.

(** *** Means over clock hours *)
(** The [h] hours from 7 o'clock on. *)
Definition in_window (h : R) (k : nat) : bool :=
  if Rle_dec 7 (INR k) then if Rlt_dec (INR k) (7 + h) then true else false else false.
(** The entries of a day's row whose hour is selected. *)
Definition selected (sel : nat -> bool) (row : list R) : list R :=
  map snd (filter (fun q => sel (fst q)) (combine (seq 0 (length row)) row)).
Definition mean (l : list R) : R := Rsum l / INR (length l).
Definition day_mean (h : R) (row : list R) : R := mean (selected (in_window h) row).
Definition night_mean (h : R) (row : list R) : R := mean (selected (fun k => negb (in_window h k)) row).

(** *** Radiation of a week with [d] working days of [h] hours: hours times mean radiation *)
Definition sun_work_day (h d : R) (row : list R) : R := h * d * day_mean h row.
Definition sun_week_night (h d : R) (row : list R) : R := (24 - h) * (d - 1) * night_mean h row.
Definition sun_weekend_day (h d : R) (row : list R) : R := h * (7 - d) * day_mean h row.
Definition sun_weekend_night (h d : R) (row : list R) : R := (24 - h) * (8 - d) * night_mean h row.
Definition sun_week (h : R) (row : list R) : R := 7 * (h * day_mean h row + (24 - h) * night_mean h row).

(** *** Losses and gains of month [i], in MJ *)
(** Indoors [t], outdoors [te], envelope [UA] W/K, ventilation [hve] W/K per m2 of floor [A]. *)
Definition month_loss (UA A hve t te : R) (i : nat) : R := (t - te) * (UA + A * hve) * month_megaseconds i.
(** Internal gains [phi] W, solar energy [sol] MJ. *)
Definition month_gain (phi sol : R) (i : nat) : R := phi * month_megaseconds i + sol.
(** Numeric parameter of the utilisation curve, ISO 13790 12.2.1: a0 + tau / tau0, tau in hours. *)
Definition utilisation_exponent (p : params_t R) : R :=
  ht_a_H0 (pa_heating p) + heat_capacity (pa_structure p) / (envelope_UA (pa_structure p) + ve_H_ve (pa_ventilation p)) / 3600 / ht_tau_H0 (pa_heating p).
(** ISO 13790 equations 51 to 54. *)
Definition utilisation (a g : R) : R := (1 - Rpower g a) / (1 - Rpower g (a + 1)).

(** What the engine has found for month [i] before its heat balance: mean indoor temperatures [t] and
    [tc] and ventilation coefficients [hve] and [hvc] for heating and cooling, outdoor temperature [te],
    solar energy [sol], internal gains [phi]. *)
Record month_data (p : params_t R) (w : mweather R) (m : mresult xr) (i : nat) (t tc te hve hvc sol phi : R) : Prop := {
  md_t : nth_error (te_h (mr_temps m)) i = Some (Fin t);
  md_tc : nth_error (te_c (mr_temps m)) i = Some (Fin tc);
  md_te : nth_error (mw_mdbt w) i = Some te;
  md_hve : nth_error (mr_Hve_ht m) i = Some (Fin hve);
  md_hvc : nth_error (mr_Hve_cl m) i = Some (Fin hvc);
  md_sol : nth_error (mr_Esol m) i = Some (Fin sol);
  md_phi : internalHeatGain (pa_structure (map_params Fin p)) (mr_gains m) = Fin phi }.

(** *** Set-points *)
(** Energy management level 2 relaxes the occupied set-points by half a degree, level 3 by one. *)
Definition bem_relief (level : Z) : R := if (level =? 2)%Z then 1 / 2 else if (level =? 3)%Z then 1 else 0.
(** The same building with another management level. *)
Definition set_bem (p : params_t R) (x : R) : params_t R :=
  let b := pa_building p in
  mkParams (pa_structure p) (pa_heating p) (pa_cooling p) (pa_ventilation p) (pa_lighting p)
    (mkBuilding (bu_lightingOccupancySensor b) (bu_constantIllumination b) (bu_elecApplianceOcc b) (bu_elecApplianceUnocc b) (bu_gasApplianceOcc b)
       (bu_gasApplianceUnocc b) x (bu_externalEquipment b)) (pa_population p) (pa_settings p) (pa_phys p) (pa_terrain p).

(** *** Air flows *)
(** Parameters of ventilation that are not negative, recirculation and recovery at most 1. *)
Record vent_nonneg (p : params_t R) : Prop := {
  vn_inf : 0 <= st_infiltrationRate (pa_structure p); vn_stack : 0 <= ve_stack_coeff (pa_ventilation p); vn_wind : 0 <= ve_wind_coeff (pa_ventilation p);
  vn_supply : 0 <= ve_supplyRate (pa_ventilation p); vn_rec : ve_exhaustAirRecirculated (pa_ventilation p) <= 1;
  vn_hre : ve_heatRecoveryEfficiency (pa_ventilation p) <= 1; vn_rho : 0 <= ph_rhoCpAir (pa_phys p) }.
(** The same building with another supply rate. *)
Definition set_supply (p : params_t R) (x : R) : params_t R :=
  let v := pa_ventilation p in
  mkParams (pa_structure p) (pa_heating p) (pa_cooling p)
    (mkVentilation x (ve_supplyDifference v) (ve_heatRecoveryEfficiency v) (ve_exhaustAirRecirculated v) (ve_type v) (ve_fanPower v) (ve_fanControlFactor v) (ve_preheat v)
       (ve_n50 v) (ve_hzone v) (ve_p_exp v) (ve_zone_frac v) (ve_stack_exp v) (ve_stack_coeff v) (ve_wind_exp v) (ve_wind_coeff v) (ve_dCp v) (ve_vent_rate_flag v) (ve_H_ve v))
    (pa_lighting p) (pa_building p) (pa_population p) (pa_settings p) (pa_phys p) (pa_terrain p).
(** The same building with another cooling set-point outside opening hours. *)
Definition set_cool_setback (p : params_t R) (x : R) : params_t R :=
  let c := pa_cooling p in
  mkParams (pa_structure p) (pa_heating p)
    (mkCooling (cl_tempOcc c) x (cl_cop c) (cl_partialLoadValue c) (cl_hvacLossFactor c) (cl_pumpControlReduction c) (cl_forcedAir c) (cl_T_ctrl_flag c) (cl_dT_supp c)
       (cl_DC_YesNo c) (cl_eta_DC_network c) (cl_eta_DC_COP c) (cl_eta_DC_frac_abs c) (cl_eta_DC_COP_abs c) (cl_frac_DC_free c) (cl_E_pumps c))
    (pa_ventilation p) (pa_lighting p) (pa_building p) (pa_population p) (pa_settings p) (pa_phys p) (pa_terrain p).
