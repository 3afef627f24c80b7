(** C121: surface irradiance computed in doubles. *)
From Coq Require Import Reals ZArith List.
From Flocq Require Import Core.Core IEEE754.BinarySingleNaN.
From Verif Require Import Base Num Dbl M_TimeFrame M_Epw M_Solar S_Calendar S_Solar S_Epw S_DoubleMonthly S_DoubleSun E_Sun L_DoubleSun L_DoubleSun2 L_DoubleSun3.
Import ListNotations.
Open Scope R_scope.

(** The property fails: with a mathematical library that rounds sine and cosine correctly, in a year with sunshine
    in every hour, all eight surfaces of a site get no number at noon of the first of January. *)
Theorem C121_refuted : exists L, exact_libm L /\ good_libm L /\ forall frame, timeFrame = Ok frame -> exists s0 s',
  newSolar (N := dbl_num L) (at_site latitude_deg longitude_deg 0) (@PI_ double (dbl_num L)) = Ok s0 /\
  calculate (N := dbl_num L) frame sunny_year s0 = Ok s' /\ forall j, (j < 8)%nat -> cell (so_eglobe s') 12 j = Some B754_nan.
Proof. exact C121_refuted_l. Qed.
Print Assumptions C121_refuted.

(** At that site this happens for every weather, every tilt, every earlier use of the object and every library
    that rounds correctly. *)
Theorem C121_zenith : forall L, exact_libm L -> forall frame (e : epw double) tilt s0 datas s s' dbt dpt rh egh eb ed wind,
  timeFrame = Ok frame -> ep_site e = Some (latitude_deg, longitude_deg, 0%Z) -> newSolar (N := dbl_num L) e tilt = Ok s0 ->
  Forall year_table datas -> ofold (fun s d => calculate (N := dbl_num L) frame d s) datas s0 = Ok s ->
  year_table [dbt; dpt; rh; egh; eb; ed; wind] -> calculate (N := dbl_num L) frame [dbt; dpt; rh; egh; eb; ed; wind] s = Ok s' ->
  nth_error (so_eglobe s') 12 = Some (repeat B754_nan 8).
Proof. exact C121_zenith_l. Qed.
Print Assumptions C121_zenith.

(** The mean of the month is lost with the hour: January has no mean irradiance on any of the eight surfaces. *)
Theorem C121_month_lost : forall L, exact_libm L -> forall frame (e : epw double) tilt s0 datas s s' dbt dpt rh egh eb ed wind,
  timeFrame = Ok frame -> ep_site e = Some (latitude_deg, longitude_deg, 0%Z) -> newSolar (N := dbl_num L) e tilt = Ok s0 ->
  Forall year_table datas -> ofold (fun s d => calculate (N := dbl_num L) frame d s) datas s0 = Ok s ->
  year_table [dbt; dpt; rh; egh; eb; ed; wind] -> calculate (N := dbl_num L) frame [dbt; dpt; rh; egh; eb; ed; wind] s = Ok s' ->
  forall j, (j < 8)%nat -> cell (av_msol (so_avg s')) 0 j = Some B754_nan.
Proof. exact C121_month_nan_l. Qed.
Print Assumptions C121_month_lost.

(** Missing: sites within 30 degrees of the equator.  Beyond them, with vertical surfaces and any library that is
    right to thirteen decimals, every hour of every surface is a number of size at most 10^7. *)
Theorem C121_irradiance_partial : forall L, good_libm L -> forall frame (e : epw double) lat lon tz s0 datas s s' dbt dpt rh egh eb ed wind,
  timeFrame = Ok frame -> ep_site e = Some (lat, lon, tz) -> is_finite lat = true -> 30 <= Rabs (B2R lat) <= 90 -> bounded 180 lon -> (-24 <= tz <= 24)%Z ->
  newSolar (N := dbl_num L) e (@PI_ double (dbl_num L)) = Ok s0 ->
  Forall year_table datas -> ofold (fun s d => calculate (N := dbl_num L) frame d s) datas s0 = Ok s ->
  year_table [dbt; dpt; rh; egh; eb; ed; wind] -> Forall (bounded 1000000) eb -> Forall (bounded 1000000) ed ->
  calculate (N := dbl_num L) frame [dbt; dpt; rh; egh; eb; ed; wind] s = Ok s' ->
  forall i, (i < 365 * 24)%nat -> exists row, nth_error (so_eglobe s') i = Some row /\ length row = 8%nat /\ Forall (bounded 10000000) row.
Proof. exact C121_far_l. Qed.
Print Assumptions C121_irradiance_partial.

(** At these sites the twelve monthly means of every surface are numbers, as close to the exact means of the hours as rounding allows. *)
Theorem C121_months_partial : forall L, good_libm L -> forall frame (e : epw double) lat lon tz s0 datas s s' dbt dpt rh egh eb ed wind,
  timeFrame = Ok frame -> ep_site e = Some (lat, lon, tz) -> is_finite lat = true -> 30 <= Rabs (B2R lat) <= 90 -> bounded 180 lon -> (-24 <= tz <= 24)%Z ->
  newSolar (N := dbl_num L) e (@PI_ double (dbl_num L)) = Ok s0 ->
  Forall year_table datas -> ofold (fun s d => calculate (N := dbl_num L) frame d s) datas s0 = Ok s ->
  year_table [dbt; dpt; rh; egh; eb; ed; wind] -> Forall (bounded 1000000) eb -> Forall (bounded 1000000) ed ->
  calculate (N := dbl_num L) frame [dbt; dpt; rh; egh; eb; ed; wind] s = Ok s' ->
  forall k j, (k < 12)%nat -> (j < 8)%nat -> exists x, cell (av_msol (so_avg s')) k j = Some x /\
    close_mean x (month_part (Z.of_nat k + 1) (surface_series (N := dbl_num L) j (so_eglobe s'))).
Proof. exact C121_months_l. Qed.
Print Assumptions C121_months_partial.

(** Chicago meets the hypotheses. *)
Example C121_case : exists L, good_libm L /\ forall frame, timeFrame = Ok frame -> exists s0 s' dbt dpt rh egh eb ed wind,
  is_finite (dlit 4198 100) = true /\ 30 <= Rabs (B2R (dlit 4198 100)) <= 90 /\ bounded 180 (dlit (-8792) 100) /\
  newSolar (N := dbl_num L) (at_site (dlit 4198 100) (dlit (-8792) 100) (-6)) (@PI_ double (dbl_num L)) = Ok s0 /\
  year_table [dbt; dpt; rh; egh; eb; ed; wind] /\ Forall (bounded 1000000) eb /\ Forall (bounded 1000000) ed /\
  sunny_year = [dbt; dpt; rh; egh; eb; ed; wind] /\ calculate (N := dbl_num L) frame sunny_year s0 = Ok s'.
Proof. exact C121_case_l. Qed.
