(** C84: which part of the weather an end use depends on. *)
From Coq Require Import Reals List ZArith.
From Verif Require Import Base Num Xr M_Params M_Hourly M_Monthly M_Map S_Results S_Monthly S_Locality E_SmallOffice E_Monthly.
From Verif Require Import L_Locality L_SymmetryCase L_LocalityCase.
Import ListNotations.

(** Hourly: in each hour interior lights depend only on the radiation of that hour, exterior lights
    only on its horizontal radiation (ninth entry), equipment on no weather at all. *)
Theorem C84_hourly : forall (T : Type) (N : Num T) (p : params_t T) ws ws' r0 rows rows' r r' n,
  simulate p ws r0 false = Ok (rows, r) -> simulate p ws' r0 false = Ok (rows', r') ->
  ((forall w w', nth_error ws n = Some w -> nth_error ws' n = Some w' -> we_sol w' = we_sol w) ->
     cell rows' n elec_int_lights = cell rows n elec_int_lights) /\
  ((forall w w', nth_error ws n = Some w -> nth_error ws' n = Some w' -> nth_error (we_sol w') 8 = nth_error (we_sol w) 8) ->
     cell rows' n elec_ext_lights = cell rows n elec_ext_lights) /\
  (forall k, In k [elec_int_equip; elec_ext_equip; elec_dhw; gas_cooling; gas_equip; gas_dhw] -> cell rows' n k = cell rows n k).
Proof. exact @C84_hourly_l. Qed.
Print Assumptions C84_hourly.
Example C84_hours : (forall n w w', nth_error noons n = Some w -> nth_error (repeat frost (Z.to_nat 8760)) n = Some w' -> we_sol w' = we_sol w) /\
  (exists rows r, simulate (@smallOffice xr _) noons no_ratios false = Ok (rows, r)) /\
  (exists rows r, simulate (@smallOffice xr _) (repeat frost (Z.to_nat 8760)) no_ratios false = Ok (rows, r)).
Proof. exact C84_hours_l. Qed.

(** Monthly: lights, fans, equipment and hot water of a month depend only on the weather of that month. *)
Theorem C84_monthly : forall (T : Type) (N : Num T) p (w w' : mweather T) rows rows' m k,
  same_month m w w' -> simulateMonthly p w = Ok rows -> simulateMonthly p w' = Ok rows' ->
  In k [elec_int_lights; elec_ext_lights; elec_fans; elec_int_equip; elec_ext_equip; elec_dhw; gas_equip; gas_dhw] ->
  cell rows' m k = cell rows m k.
Proof. exact @C84_monthly_l. Qed.
Print Assumptions C84_monthly.
(** Interior lights, equipment and hot water depend on no weather at all. *)
Theorem C84_indifferent : forall (T : Type) (N : Num T) p (w w' : mweather T) rows rows' k,
  simulateMonthly p w = Ok rows -> simulateMonthly p w' = Ok rows' ->
  In k [elec_int_lights; elec_int_equip; elec_ext_equip; elec_dhw; gas_equip; gas_dhw] -> forall m, cell rows' m k = cell rows m k.
Proof. exact @C84_indifferent_l. Qed.
Print Assumptions C84_indifferent.
Example C84_months : (forall m, 0 < m < 12 -> same_month m southSun darkJanuary)%nat /\ darkJanuary <> southSun /\
  (exists rows, simulateMonthly (map_params Fin (@monthlyOffice R _)) southSun = Ok rows) /\
  (exists rows, simulateMonthly (map_params Fin (@monthlyOffice R _)) darkJanuary = Ok rows).
Proof. exact C84_months_l. Qed.
