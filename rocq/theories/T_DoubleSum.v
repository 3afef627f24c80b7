(** C117: the total energy use in IEEE 754 arithmetic. *)
From Coq Require Import Reals List ZArith.
From Flocq Require Import Core.Core IEEE754.BinarySingleNaN.
From Verif Require Import Base Num Dbl M_Params M_Hourly M_Monthly M_Report S_DoubleSum E_SmallOffice L_Office L_Office2 L_Report L_DoubleSum L_DoubleSum2.
Import ListNotations.
Open Scope R_scope.

(** Adding up to a year of thirteen end uses loses at most the tenth digit, whatever other fuels and categories there are. *)
Theorem C117_total : forall (L : libm) fuels cats rows, NoDup fuels -> NoDup cats -> (forall f c, In (f, c) os_slots -> In f fuels /\ In c cats) ->
  summable rows -> right_to_10 (totalEnergyUse fuels cats (map os_row rows)) rows.
Proof. intros L fuels cats rows NF NC AL. exact (C117_l fuels cats NF NC AL rows). Qed.
Print Assumptions C117_total.

(** So for both engines, if their table is finite and below 10^300 altogether. *)
Theorem C117_hourly : forall (L : libm) fuels cats (p : params_t double) ws r0 agg res r, NoDup fuels -> NoDup cats -> (forall f c, In (f, c) os_slots -> In f fuels /\ In c cats) ->
  os_simulate p ws r0 agg = Ok (res, r) ->
  exists rows, simulate p ws r0 agg = Ok (rows, r) /\
    (Forall (fun x => is_finite x = true) (concat rows) -> table_size rows <= IZR (10 ^ 300) -> right_to_10 (totalEnergyUse fuels cats res) rows).
Proof. intros L fuels cats p ws r0 agg res r NF NC AL. exact (C117_hourly_l fuels cats NF NC AL p ws r0 agg res r). Qed.
Print Assumptions C117_hourly.
Theorem C117_monthly : forall (L : libm) fuels cats (p : params_t double) w res, NoDup fuels -> NoDup cats -> (forall f c, In (f, c) os_slots -> In f fuels /\ In c cats) ->
  os_monthly p w = Ok res ->
  exists rows, simulateMonthly p w = Ok rows /\
    (Forall (fun x => is_finite x = true) (concat rows) -> table_size rows <= IZR (10 ^ 300) -> right_to_10 (totalEnergyUse fuels cats res) rows).
Proof. intros L fuels cats p w res NF NC AL. exact (C117_monthly_l fuels cats NF NC AL p w res). Qed.
Print Assumptions C117_monthly.

(** The hourly engine's total by the month agrees with the one by the hour to nine digits. *)
Theorem C117_same : forall (L : libm) fuels cats (p : params_t double) ws r0 mres r hrows r', NoDup fuels -> NoDup cats -> (forall f c, In (f, c) os_slots -> In f fuels /\ In c cats) ->
  os_simulate p ws r0 true = Ok (mres, r) -> simulate p ws r0 false = Ok (hrows, r') ->
  Forall (fun x => is_finite x = true) (concat hrows) -> 2 * table_size hrows <= IZR (10 ^ 300) ->
  is_finite (totalEnergyUse fuels cats mres) = true /\
  Rabs (B2R (totalEnergyUse fuels cats mres) - B2R (totalEnergyUse fuels cats (map os_row hrows))) <= table_size hrows / 1000000000.
Proof. intros L fuels cats p ws r0 mres r hrows r' NF NC AL. exact (C117_same_l fuels cats NF NC AL p ws r0 mres r hrows r'). Qed.
Print Assumptions C117_same.

(** A year with the end uses 1 to 13 in every hour, one more fuel and one more category; and the small office has both tables. *)
Example C117_case : NoDup some_fuels /\ NoDup some_categories /\ (forall f c, In (f, c) os_slots -> In f some_fuels /\ In c some_categories) /\
  summable one_to_13 /\ table_sum one_to_13 = 797160 /\
  forall (L : libm) t, exists mres r hrows r', os_simulate (@smallOffice double (dbl_num L)) (constant_year 8760 t) no_ratios true = Ok (mres, r) /\
    simulate (@smallOffice double (dbl_num L)) (constant_year 8760 t) no_ratios false = Ok (hrows, r').
Proof. exact C117_case2_l. Qed.
