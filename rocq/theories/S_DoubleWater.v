(** Hot water of the monthly engine in double arithmetic. *)
From Coq Require Import Reals ZArith List.
From Flocq Require Import Core.Core IEEE754.BinarySingleNaN.
From Verif Require Import Base Num Dbl M_Params S_Calendar S_Monthly.
Import ListNotations.
Open Scope R_scope.

(** Neither tiny nor enormous. *)
Definition moderate (x : R) : Prop := / 1000000000 <= x <= 1000000000.
(** The demand may be zero, and so may the temperature rise. *)
Record water_moderate (p : params_t double) : Prop := {
  wm_finite : is_finite (ht_hotWaterDemand (pa_heating p)) = true /\ is_finite (ht_dhw_tset (pa_heating p)) = true /\ is_finite (ht_dhw_tsupply (pa_heating p)) = true /\
    is_finite (ph_rhoCpWater (pa_phys p)) = true /\ is_finite (ht_hotWaterDistributionEfficiency (pa_heating p)) = true /\
    is_finite (ht_hotWaterSystemEfficiency (pa_heating p)) = true /\ is_finite (st_floorArea (pa_structure p)) = true /\ is_finite (ht_hotWaterEnergyType (pa_heating p)) = true;
  wm_demand : B2R (ht_hotWaterDemand (pa_heating p)) = 0 \/ moderate (B2R (ht_hotWaterDemand (pa_heating p)));
  wm_rise : B2R (ht_dhw_tset (pa_heating p)) - B2R (ht_dhw_tsupply (pa_heating p)) = 0 \/ moderate (B2R (ht_dhw_tset (pa_heating p)) - B2R (ht_dhw_tsupply (pa_heating p)));
  wm_rho : moderate (B2R (ph_rhoCpWater (pa_phys p)));
  wm_dist : moderate (B2R (ht_hotWaterDistributionEfficiency (pa_heating p)));
  wm_sys : moderate (B2R (ht_hotWaterSystemEfficiency (pa_heating p)));
  wm_area : moderate (B2R (st_floorArea (pa_structure p))) }.

(** The exact energy of month [i] (0 to 11), kWh of fuel per m2 of floor. *)
Definition water_exact (p : params_t double) (i : nat) : R :=
  let he := pa_heating p in
  B2R (ht_hotWaterDemand he) * (B2R (ht_dhw_tset he) - B2R (ht_dhw_tsupply he)) * B2R (ph_rhoCpWater (pa_phys p)) * (IZR (nth i days_in_month 0%Z) / 365)
  / B2R (ht_hotWaterDistributionEfficiency he) / B2R (ht_hotWaterSystemEfficiency he) / MJ_per_kWh / B2R (st_floorArea (pa_structure p)).

(** The reported numbers are finite and within one part in 10^13; the other carrier is exactly zero. *)
Definition column_exact_13 (k : nat) (rows : list (list double)) (rs : list R) : Prop :=
  Forall2 (fun row r => exists x, nth_error row k = Some x /\ is_finite x = true /\ Rabs (B2R x - r) <= r / 10000000000000) rows rs.
Definition column_none (k : nat) (rows : list (list double)) : Prop :=
  Forall (fun row => exists x, nth_error row k = Some x /\ is_finite x = true /\ B2R x = 0) rows.
