(** C120: the exterior lights of the monthly engine in IEEE 754 arithmetic. *)
From Coq Require Import Reals List ZArith Bool.
From Flocq Require Import Core.Core IEEE754.BinarySingleNaN.
From Verif Require Import Base Num Xr Dbl M_Params M_Monthly S_Calendar S_Results S_Locality S_Monthly S_DoubleWater S_DoubleLights S_DoubleOutside E_SmallOffice E_Monthly L_Double8 L_DoubleOutside.
Import ListNotations.
Open Scope R_scope.

(** Each month's exterior lighting is its power times the hours outside the span from the first to the last hour with radiation,
    to one part in 10^13 and never negative; any radiation other than zero, also NaN, counts as sun. *)
Theorem C120_outside : forall (L : libm) (p : params_t double) w rows,
  is_finite (st_floorArea (pa_structure p)) = true /\ moderate (B2R (st_floorArea (pa_structure p))) -> some_or_none (li_exteriorEnergy (pa_lighting p)) ->
  simulateMonthly p w = Ok rows -> forall m row, nth_error (mw_mhEgh w) m = Some row ->
  exists i j, day_span row i j /\ (i <= j < 24)%nat /\
    exists x, cell rows m elec_ext_lights = Some x /\ is_finite x = true /\ Rabs (B2R x - outside_exact p m i j) <= outside_exact p m i j / 10000000000000.
Proof. intros L p w rows HA HE. exact (C120_l p HA HE w rows). Qed.
Print Assumptions C120_outside.

(** The office in doubles and a year with sun from hour 7 to hour 16. *)
Example C120_case : forall (L : libm), let p := @monthlyOffice double (dbl_num L) in
  ((is_finite (st_floorArea (pa_structure p)) = true /\ moderate (B2R (st_floorArea (pa_structure p)))) /\ some_or_none (li_exteriorEnergy (pa_lighting p))) /\
  day_span (nth 0 (mw_mhEgh (@mildYear double (dbl_num L))) []) 7 16 /\ exists rows, simulateMonthly p mildYear = Ok rows.
Proof. intros L. split; [exact office_outside|]. split; [exact mild_day|exact office_monthly_runs]. Qed.
