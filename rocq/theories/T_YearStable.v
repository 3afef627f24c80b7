(** C96, C97: differences in the weather fade, and small ones have small effects. *)
From Coq Require Import Reals Lra ZArith List.
From Verif Require Import Base Num Xr M_Params M_Hourly M_Map S_Physical S_Network S_Year S_HourSpec S_Balance S_Compare S_YearCompare S_YearClimate S_YearStable S_MonthlyClimate
  L_Office2 L_HourlyThm4 L_YearCompare3 L_YearClimate2 L_YearStable L_YearStable2.
Import ListNotations.
Open Scope R_scope.

(** C96: [n] hours after the weather of two years has become the same, their needs differ by a share that shrinks
    geometrically. *)
Theorem C96_forgets : forall p lo hi tt d us us' ws raw raw' r r',
  physical p -> ordered_setpoints p -> mass_slow p -> recovery_ok p -> timetable_of p tt -> encloses lo hi p -> 0 <= d ->
  Forall2 (fun w w' => close_hour d w w' /\ same_leak p lo hi w w') us us' -> (forall w, In w ws -> same_leak p lo hi w w) ->
  simulateRaw (map_params Fin p) (map (map_weather Fin) (us ++ ws)) no_ratios = Ok (raw, r) ->
  simulateRaw (map_params Fin p) (map (map_weather Fin) (us' ++ ws)) no_ratios = Ok (raw', r') ->
  0 < memory p < 1 /\
  forall n h h', nth_error raw (length us + n) = Some h -> nth_error raw' (length us + n) = Some h' ->
  needs_within (sp_is p * memory p ^ n * d) h h'.
Proof. exact C96_l. Qed.
Print Assumptions C96_forgets.

(** A year of 15 degrees with a first day of 15 and of 16 degrees. *)
Example C96_case : let p := still_office in
  physical p /\ ordered_setpoints p /\ mass_slow p /\ recovery_ok p /\ timetable_of p office_hours /\ encloses 18 22 p /\
  Forall2 (fun w w' => close_hour 1 w w' /\ same_leak p 18 22 w w') (first_day windy_hour) (first_day mild_hour) /\
  (forall w, In w rest_of_year -> same_leak p 18 22 w w) /\
  (exists raw r, simulateRaw (map_params Fin p) (map (map_weather Fin) (first_day windy_hour ++ rest_of_year)) no_ratios = Ok (raw, r)) /\
  exists raw r, simulateRaw (map_params Fin p) (map (map_weather Fin) (first_day mild_hour ++ rest_of_year)) no_ratios = Ok (raw, r).
Proof. exact C96_case_l. Qed.

(** C97: outdoor temperatures that differ by at most [d] give needs that differ by at most a multiple of [d]. *)
Theorem C97_close : forall p lo hi tt d ws ws' raw raw' r r',
  physical p -> ordered_setpoints p -> mass_slow p -> recovery_ok p -> timetable_of p tt -> encloses lo hi p -> 0 <= d ->
  Forall2 (fun w w' => close_hour d w w' /\ same_leak p lo hi w w') ws ws' ->
  simulateRaw (map_params Fin p) (map (map_weather Fin) ws) no_ratios = Ok (raw, r) ->
  simulateRaw (map_params Fin p) (map (map_weather Fin) ws') no_ratios = Ok (raw', r') ->
  forall k w h h', nth_error ws k = Some w -> nth_error raw k = Some h -> nth_error raw' k = Some h' ->
  needs_within (2 * stiffness p tt (Z.of_nat k) w * d) h h'.
Proof. exact C97_l. Qed.
Print Assumptions C97_close.

(** Windy years of 15 and of 16 degrees. *)
Example C97_case : let p := still_office in
  physical p /\ ordered_setpoints p /\ mass_slow p /\ recovery_ok p /\ timetable_of p office_hours /\ encloses 18 22 p /\
  Forall2 (fun w w' => close_hour 1 w w' /\ same_leak p 18 22 w w') windy_year mild_year /\
  (exists raw r, simulateRaw (map_params Fin p) (map (map_weather Fin) windy_year) no_ratios = Ok (raw, r)) /\
  exists raw r, simulateRaw (map_params Fin p) (map (map_weather Fin) mild_year) no_ratios = Ok (raw, r).
Proof. exact C97_case_l. Qed.
