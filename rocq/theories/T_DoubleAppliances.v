(** C116: the appliance columns of the monthly engine in IEEE 754 arithmetic. *)
From Coq Require Import Reals List ZArith Bool.
From Flocq Require Import Core.Core IEEE754.BinarySingleNaN.
From Verif Require Import Base Num Xr Dbl M_Params M_Monthly S_Calendar S_Results S_Year S_Monthly S_Double S_DoubleMonthly S_DoubleTotals S_DoubleAppliances E_SmallOffice E_Monthly L_Office L_Office2 L_Double8 L_DoubleAppliances.
Import ListNotations.
Open Scope R_scope.

(** The electric and the gas appliances of each month are its hours times the mean power of the week, to thirteen digits,
    also where the open hours fill all of the week or none of it. *)
Theorem C116_appliances : forall (L : libm) (p : params_t double) tt w rows, whole_hours p tt -> in_week tt -> appliance_powers p ->
  simulateMonthly p w = Ok rows ->
  column_right elec_int_equip rows (map (appliances_exact tt (bu_elecApplianceOcc (pa_building p)) (bu_elecApplianceUnocc (pa_building p))) (seq 0 12)) /\
  column_right gas_equip rows (map (appliances_exact tt (bu_gasApplianceOcc (pa_building p)) (bu_gasApplianceUnocc (pa_building p))) (seq 0 12)).
Proof. intros L p tt w rows HW HI. exact (C116_l p tt HW HI w rows). Qed.
Print Assumptions C116_appliances.

(** The office in doubles, open 45 of 168 hours, meets the hypotheses and has a table. *)
Example C116_case : forall (L : libm), whole_hours (@monthlyOffice double (dbl_num L)) office_hours /\ in_week office_hours /\ open_share office_hours = 45 / 168 /\
  appliance_powers (@monthlyOffice double (dbl_num L)) /\ exists rows, simulateMonthly (@monthlyOffice double (dbl_num L)) mildYear = Ok rows.
Proof. intros L. split; [exact office_m_whole|]. split; [exact office_in_week|]. split; [exact office_share|]. split; [exact office_appliances|exact office_monthly_runs]. Qed.
