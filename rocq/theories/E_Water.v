(** The office with taps. *)
From Coq Require Import ZArith.
From Verif Require Import Base Num M_Params M_Monthly E_SmallOffice E_Monthly.
Open Scope num_scope.

Definition with_heating {T} (p : params_t T) (x : heating_t T) : params_t T :=
  mkParams (pa_structure p) x (pa_cooling p) (pa_ventilation p) (pa_lighting p) (pa_building p) (pa_population p) (pa_settings p) (pa_phys p) (pa_terrain p).
(** 25 m3 of hot water a year, heated by gas with efficiencies 0.6 and 0.8 from 20 to 60 degrees. *)
Definition wetOffice {T} {N : Num T} : params_t T :=
  let p := monthlyOffice in let h := pa_heating p in
  with_heating p (mkHeating (ht_tempOcc h) (ht_tempUnocc h) (ht_hvacLossFactor h) (ht_efficiency h) (ht_energyType h) (ht_pumpControlReduction h)
    (zn 25) (ht_hotWaterDistributionEfficiency h) (ht_hotWaterSystemEfficiency h) (ht_hotWaterEnergyType h) (ht_hotcoldWasteFactor h)
    (ht_forcedAir h) (ht_dT_supp h) (ht_E_pumps h) (ht_T_ctrl_flag h) (ht_a_H0 h) (ht_tau_H0 h)
    (ht_DH_YesNo h) (ht_eta_DH_network h) (ht_eta_DH_sys h) (ht_frac_DH_free h) (ht_dhw_tset h) (ht_dhw_tsupply h)).
