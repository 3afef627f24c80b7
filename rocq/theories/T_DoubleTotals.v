(** C105: the monthly totals of the clock-driven end uses in IEEE 754 arithmetic. *)
From Coq Require Import Reals List ZArith Bool.
From Flocq Require Import Core.Core IEEE754.BinarySingleNaN.
From Verif Require Import Base Num Xr Dbl M_Params M_Hourly S_Calendar S_Results S_Year S_Totals S_Double S_DoubleMonthly S_DoubleTotals E_SmallOffice L_Office L_Office2 L_Double9.
Import ListNotations.
Open Scope R_scope.

(** Interior equipment, exterior equipment and exterior lights of each month are power times
    hours to thirteen digits, whatever the rest of the building and the weather are. *)
Theorem C105_rounded : forall (L : libm) (p : params_t double) tt ws r0 rows r, whole_hours p tt -> powers p ->
  Z.of_nat (length ws) = 8760%Z -> simulate p ws r0 true = Ok (rows, r) ->
  column_right elec_int_equip rows (map (fun m => equipment_exact p tt (hours_in m)) (zrange 1 12)) /\
  column_right elec_ext_equip rows (map (fun m => ext_equipment_exact p (hours_in m)) (zrange 1 12)) /\
  column_right elec_ext_lights rows (map (fun m => ext_lights_exact p (month_part m ws)) (zrange 1 12)).
Proof. intros L p tt ws r0 rows r HW HP. exact (C105_l p tt ws r0 HW HP rows r). Qed.
Print Assumptions C105_rounded.

(** The office in doubles meets the hypotheses and has a monthly table. *)
Example C105_case : forall (L : libm), whole_hours (@smallOffice double (dbl_num L)) office_hours /\ powers (@smallOffice double (dbl_num L)) /\
  forall t, Z.of_nat (length (@constant_year 8760 double (dbl_num L) t)) = 8760%Z /\
    exists rows r, simulate (@smallOffice double (dbl_num L)) (constant_year 8760 t) no_ratios true = Ok (rows, r).
Proof. intros L. split; [exact office_whole|]. split; [exact office_powers|exact office_months]. Qed.
