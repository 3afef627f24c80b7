(** C119: the interior lights of the monthly engine in IEEE 754 arithmetic. *)
From Coq Require Import Reals List ZArith Bool.
From Flocq Require Import Core.Core IEEE754.BinarySingleNaN.
From Verif Require Import Base Num Xr Dbl M_Params M_Monthly S_Calendar S_Results S_Year S_DoubleTotals S_DoubleAppliances S_DoubleWater S_DoubleLights E_SmallOffice E_Monthly L_Office L_Office2 L_Double8 L_DoubleLights.
Import ListNotations.
Open Scope R_scope.

(** Each month's interior lighting is its days' share of the year's energy in open hours with daylight (dimmed), open hours
    without, and the rest of the 8760 hours, to one part in 10^13. *)
Theorem C119_lights : forall (L : libm) (p : params_t double) tt a b n w rows, lamp_hours p tt a b n -> lamp_powers p ->
  simulateMonthly p w = Ok rows -> column_exact_13 elec_int_lights rows (map (lights_exact p tt a b n) (seq 0 12)).
Proof. intros L p tt a b n w rows H P. exact (C119_l p tt a b n H P w rows). Qed.
Print Assumptions C119_lights.

(** The office, open from 8 to 17 in daylight from 7 to 18, 50 weeks of 5 days. *)
Example C119_case : forall (L : libm), lamp_hours (@monthlyOffice double (dbl_num L)) office_hours 7 18 50 /\ lamp_powers (@monthlyOffice double (dbl_num L)) /\
  bright_hours office_hours 7 18 = 9%Z /\ bright_hours office_hours 9 16 = 7%Z /\ dark_hours office_hours 9 16 = 2%Z /\ year_days office_hours 50 = 250%Z /\
  exists rows, simulateMonthly (@monthlyOffice double (dbl_num L)) mildYear = Ok rows.
Proof. intros L. split; [exact office_lamp_hours|]. split; [exact office_lamps|]. do 4 (split; [reflexivity|]). exact office_monthly_runs. Qed.
