(** C102 and the double precision form of C39: the monthly engine and the weather averages
    in IEEE 754 arithmetic with rounding and overflow, for any mathematical library. *)
From Coq Require Import Reals List ZArith Bool.
From Flocq Require Import Core.Core IEEE754.BinarySingleNaN.
From Verif Require Import Base Num Xr Dbl M_Params M_Epw M_Monthly S_Calendar S_Results S_Solar S_Epw S_Double S_DoubleMonthly E_SmallOffice E_Monthly.
From Verif Require Import L_Double6 L_Double7 L_Double8.
Import ListNotations.
Open Scope R_scope.

(** Exterior lights, fans, appliances and hot water of the monthly engine are never below zero. *)
Theorem C102_no_negative : forall (L : libm) (p : params_t double) w rows k v, unsigned_monthly p ->
  simulateMonthly p w = Ok rows -> In k clock_driven -> is_series k rows v -> Forall not_negative v.
Proof. intros L p w rows k v UM. exact (monthly_sign_l p UM w rows k v). Qed.
Print Assumptions C102_no_negative.

(** Monthly and clock hour averages of finite values are finite and, up to rounding, the exact means. *)
Theorem C39_rounded : forall (L : libm) (xs : list double), length xs = slices -> Forall ordinary xs ->
  (forall k, (k < 12)%nat -> exists x, nth_error (monthly_means xs) k = Some x /\ close_mean x (month_part (Z.of_nat k + 1) xs)) /\
  (forall k h, (k < 12)%nat -> (h < 24)%nat -> exists x, cell (hourly_means xs) k h = Some x /\ close_mean x (hour_part (Z.of_nat k + 1) (Z.of_nat h) xs)).
Proof. intros L. exact C39_rounded_l. Qed.
Print Assumptions C39_rounded.

(** The office in doubles meets the hypotheses and has a monthly table; a year at -5 degrees
    meets those of the averages. *)
Example C102_case : forall (L : libm), unsigned_monthly (@monthlyOffice double (dbl_num L)) /\
  (exists rows, simulateMonthly (@monthlyOffice double (dbl_num L)) mildYear = Ok rows) /\
  Forall ordinary (repeat (z2d (-5)) slices) /\ length (repeat (z2d (-5)) slices) = slices.
Proof. intros L. split; [exact office_monthly|]. split; [exact office_monthly_runs|exact cold_ordinary]. Qed.
