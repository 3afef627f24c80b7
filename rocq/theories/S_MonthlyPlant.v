(** What the plant of the monthly engine should use.  Independent of how the engine computes it. *)
From Coq Require Import Reals List ZArith.
From Verif Require Import Num Xr M_Params S_Physical S_Schedule S_Monthly.
Import ListNotations.
Open Scope R_scope.

(** Shares of heating and cooling in the needs [qh] and [qc] of the year, each at least a tenth. *)
Definition heating_share (qh qc : list R) : R := Rmax (Rsum qh / (Rsum qc + Rsum qh)) (1 / 10).
Definition cooling_share (qh qc : list R) : R := Rmax (1 - heating_share qh qc) (1 / 10).
(** A need plus what distribution loses: a share of the need, and heat wasted by heating and cooling
    at the same time, charged to each in inverse proportion to its share. *)
Definition with_heating_losses (p : params_t R) (qh qc : list R) (q : R) : R :=
  q + q * (ht_hvacLossFactor (pa_heating p) + ht_hotcoldWasteFactor (pa_heating p) / heating_share qh qc).
Definition with_cooling_losses (p : params_t R) (qh qc : list R) (q : R) : R :=
  q + q * (cl_hvacLossFactor (pa_cooling p) + ht_hotcoldWasteFactor (pa_heating p) / cooling_share qh qc).
(** From MJ to kWh per m2. *)
Definition kWh_m2 (p : params_t R) (x : R) : R := x / st_floorArea (pa_structure p) / MJ_per_kWh.

(** Loss factors that are not negative, efficiencies that are positive. *)
Record plant_ok (p : params_t R) : Prop := {
  pl_area : 0 < st_floorArea (pa_structure p);
  pl_loss : 0 <= ht_hvacLossFactor (pa_heating p); pl_closs : 0 <= cl_hvacLossFactor (pa_cooling p); pl_waste : 0 <= ht_hotcoldWasteFactor (pa_heating p);
  pl_eff : 0 < ht_efficiency (pa_heating p); pl_cop : 0 < cl_cop (pa_cooling p) * cl_partialLoadValue (pa_cooling p);
  pl_dh : 0 < ht_eta_DH_sys (pa_heating p) * ht_eta_DH_network (pa_heating p);
  pl_dc : 0 < cl_eta_DC_COP (pa_cooling p) * cl_eta_DC_network (pa_cooling p);
  pl_abs : 0 < cl_eta_DC_COP_abs (pa_cooling p) }.

(** Energy of the pumps in a year, kWh/m2: rated power W/m2 times control factor times the seconds of 365 days. *)
Definition pump_year (p : params_t R) : R :=
  (ht_E_pumps (pa_heating p) * ht_pumpControlReduction (pa_heating p) + cl_E_pumps (pa_cooling p) * cl_pumpControlReduction (pa_cooling p)) * (365 * 86400 / 1000000) / MJ_per_kWh.
(** The same building with another share of district cooling from absorption chillers. *)
Definition set_absorption (p : params_t R) (x : R) : params_t R :=
  let c := pa_cooling p in
  mkParams (pa_structure p) (pa_heating p)
    (mkCooling (cl_tempOcc c) (cl_tempUnocc c) (cl_cop c) (cl_partialLoadValue c) (cl_hvacLossFactor c) (cl_pumpControlReduction c) (cl_forcedAir c) (cl_T_ctrl_flag c) (cl_dT_supp c)
       (cl_DC_YesNo c) (cl_eta_DC_network c) (cl_eta_DC_COP c) x (cl_eta_DC_COP_abs c) (cl_frac_DC_free c) (cl_E_pumps c))
    (pa_ventilation p) (pa_lighting p) (pa_building p) (pa_population p) (pa_settings p) (pa_phys p) (pa_terrain p).

(** Inputs that are not negative and shares that are at most 1. *)
Record uses_nonneg (p : params_t R) : Prop := {
  un_light : light_nonneg p; un_day : day_schedule p; un_ext : 0 <= li_exteriorEnergy (pa_lighting p);
  un_eo : 0 <= bu_elecApplianceOcc (pa_building p); un_eu : 0 <= bu_elecApplianceUnocc (pa_building p);
  un_go : 0 <= bu_gasApplianceOcc (pa_building p); un_gu : 0 <= bu_gasApplianceUnocc (pa_building p);
  un_fan : 0 <= ve_fanPower (pa_ventilation p) * ve_fanControlFactor (pa_ventilation p); un_supply : 0 <= ve_supplyRate (pa_ventilation p);
  un_hpump : 0 <= ht_E_pumps (pa_heating p) * ht_pumpControlReduction (pa_heating p); un_cpump : 0 <= cl_E_pumps (pa_cooling p) * cl_pumpControlReduction (pa_cooling p);
  un_dh : ht_frac_DH_free (pa_heating p) <= 1; un_abs : cl_eta_DC_frac_abs (pa_cooling p) <= 1; un_dc : cl_frac_DC_free (pa_cooling p) <= 1 }.
(** Efficiencies of the hot water system that are positive. *)
Definition water_ok (p : params_t R) : Prop := 0 < ht_hotWaterDistributionEfficiency (pa_heating p) /\ 0 < ht_hotWaterSystemEfficiency (pa_heating p).
(** A month without zero divisors: losses [L] for heating, [K] for cooling, gains [G]. *)
Record clear_month (L K G : R) : Prop := {
  cm_loss : L + Rdblmin <> 0; cm_equal : G <> L + Rdblmin; cm_ratio : G / (L + Rdblmin) + Rdblmin <> 0;
  cm_gain : G + Rdblmin <> 0; cm_cool : K <> G + Rdblmin }.
