(** C110: the results of the OpenStudio build and their total. *)
From Coq Require Import List ZArith.
From Verif Require Import Base Num Xr M_Params M_Hourly M_Monthly M_Report L_Report E_SmallOffice L_YearCompare3.
Import ListNotations.

(** Each of the thirteen values of a time step is found under its fuel and category, for every number type, *)
Theorem C110_entries : forall T (N : Num T) (a b c d e f g h i j k l m : T), let r := os_row [a; b; c; d; e; f; g; h; i; j; k; l; m] in
  os_get r (Electricity, Heating) = a /\ os_get r (Electricity, Cooling) = b /\ os_get r (Electricity, InteriorLights) = c /\ os_get r (Electricity, ExteriorLights) = d /\
  os_get r (Electricity, Fans) = e /\ os_get r (Electricity, Pumps) = f /\ os_get r (Electricity, InteriorEquipment) = g /\ os_get r (Electricity, ExteriorEquipment) = h /\
  os_get r (Electricity, WaterSystems) = i /\ os_get r (Gas, Heating) = j /\ os_get r (Gas, Cooling) = k /\ os_get r (Gas, InteriorEquipment) = l /\
  os_get r (Gas, WaterSystems) = m.
Proof. exact @C110_entries_l. Qed.
Print Assumptions C110_entries.
(** and nothing under any other. *)
Theorem C110_others : forall T (N : Num T) (row : list T) k, length row = 13 -> ~ In k os_slots -> os_get (os_row row) k = zn 0.
Proof. exact @C110_others_l. Qed.
Print Assumptions C110_others.

(** The total counts every end use of every time step once, whatever other fuels and categories there are. *)
Theorem C110_total : forall fuels cats (rows : list (list xr)), NoDup fuels -> NoDup cats -> (forall f c, In (f, c) os_slots -> In f fuels /\ In c cats) ->
  Forall (fun row => length row = 13) rows -> totalEnergyUse fuels cats (map os_row rows) = accumulate (concat rows).
Proof. exact C110_total_l. Qed.
Print Assumptions C110_total.
Theorem C110_hourly : forall fuels cats (p : params_t xr) ws r0 agg res r, NoDup fuels -> NoDup cats -> (forall f c, In (f, c) os_slots -> In f fuels /\ In c cats) ->
  os_simulate p ws r0 agg = Ok (res, r) ->
  exists rows, simulate p ws r0 agg = Ok (rows, r) /\ length res = length rows /\ totalEnergyUse fuels cats res = accumulate (concat rows).
Proof. exact C110_hourly_l. Qed.
Print Assumptions C110_hourly.
Theorem C110_monthly : forall fuels cats (p : params_t xr) w res, NoDup fuels -> NoDup cats -> (forall f c, In (f, c) os_slots -> In f fuels /\ In c cats) ->
  os_monthly p w = Ok res -> exists rows, simulateMonthly p w = Ok rows /\ length res = length rows /\ totalEnergyUse fuels cats res = accumulate (concat rows).
Proof. exact C110_monthly_l. Qed.
Print Assumptions C110_monthly.

(** The hourly engine's total is the same reported by the hour and by the month. *)
Theorem C110_same : forall fuels cats (p : params_t xr) ws r0 mres r hres r', NoDup fuels -> NoDup cats -> (forall f c, In (f, c) os_slots -> In f fuels /\ In c cats) ->
  os_simulate p ws r0 true = Ok (mres, r) -> os_simulate p ws r0 false = Ok (hres, r') -> totalEnergyUse fuels cats mres = totalEnergyUse fuels cats hres.
Proof. exact C110_same_l. Qed.
Print Assumptions C110_same.

(** The small office with one more fuel and one more category. *)
Example C110_case : NoDup some_fuels /\ NoDup some_categories /\ (forall f c, In (f, c) os_slots -> In f some_fuels /\ In c some_categories) /\
  exists mres r hres r', os_simulate smallOffice windy_year no_ratios true = Ok (mres, r) /\ os_simulate smallOffice windy_year no_ratios false = Ok (hres, r').
Proof. exact C110_case_l. Qed.
