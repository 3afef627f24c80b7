(** C118: the hot water columns of the monthly engine in IEEE 754 arithmetic. *)
From Coq Require Import Reals List ZArith Bool.
From Flocq Require Import Core.Core IEEE754.BinarySingleNaN.
From Verif Require Import Base Num Xr Dbl M_Params M_Monthly S_Calendar S_Results S_Monthly S_DoubleWater E_SmallOffice E_Monthly E_Water L_DoubleWater.
Import ListNotations.
Open Scope R_scope.

(** Each month's fuel for hot water is its share of the year's demand, divided once by each efficiency, to one part in 10^13,
    all of it under the chosen carrier and nothing under the other. *)
Theorem C118_hot_water : forall (L : libm) (p : params_t double) w rows, water_moderate p -> simulateMonthly p w = Ok rows ->
  (B2R (ht_hotWaterEnergyType (pa_heating p)) = 1 -> column_exact_13 elec_dhw rows (map (water_exact p) (seq 0 12)) /\ column_none gas_dhw rows) /\
  (B2R (ht_hotWaterEnergyType (pa_heating p)) <> 1 -> column_exact_13 gas_dhw rows (map (water_exact p) (seq 0 12)) /\ column_none elec_dhw rows).
Proof. intros L p w rows W. exact (C118_l p W w rows). Qed.
Print Assumptions C118_hot_water.

(** An office using 25 m3 a year meets the hypotheses and has a table. *)
Example C118_case : forall (L : libm), water_moderate (@wetOffice double (dbl_num L)) /\ moderate (B2R (ht_hotWaterDemand (pa_heating (@wetOffice double (dbl_num L))))) /\
  exists rows, simulateMonthly (@wetOffice double (dbl_num L)) mildYear = Ok rows.
Proof. intros L. split; [exact wet_moderate|]. split; [exact wet_demand|exact wet_runs]. Qed.
