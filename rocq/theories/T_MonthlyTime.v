(** C11, C20, C21, C22: time in the monthly engine. *)
From Coq Require Import Reals ZArith List Lia.
From Verif Require Import Base Num Xr M_Params M_Hourly M_Monthly M_Map S_Calendar S_Schedule E_SmallOffice L_Monthly L_Monthly2 L_Monthly4.
Import ListNotations.
Open Scope R_scope.

(** C11, false as stated.  In a building whose appliances give 1 W/m2 when occupied and 0 otherwise the sum over
    the hourly engine's table of a week is the number of occupied hours.  For every schedule of clock hours and
    weekdays it differs from the monthly engine's number, unless the first day comes after the last one
    and the monthly engine counts none either. *)
Theorem C11_counts : forall (p : params_t R) hs he ds de,
  whole_schedule (pa_population p) hs he ds de -> clock_schedule hs he ds de ->
  bu_elecApplianceOcc (pa_building p) = 1 -> bu_elecApplianceUnocc (pa_building p) = 0 ->
  exists tbl hourly monthly, populateSchedules (map_params Fin p) = Ok tbl /\
    accumulate (map sc_intEquip (concat tbl)) = Fin hourly /\
    oc_wk_day (scheduleAndOccupancy (map_population Fin (pa_population p))) = Fin (monthly / 168) /\
    (hourly = monthly <-> (de < ds)%Z /\ (hs = he \/ de = ds - 1)%Z).
Proof. exact C11_l. Qed.
Print Assumptions C11_counts.
Theorem C11_refuted : exists (p : params_t R) tbl hourly monthly, whole_schedule (pa_population p) 8 17 1 5 /\
  populateSchedules (map_params Fin p) = Ok tbl /\ accumulate (map sc_intEquip (concat tbl)) = Fin hourly /\
  oc_wk_day (scheduleAndOccupancy (map_population Fin (pa_population p))) = Fin (monthly / 168) /\ hourly <> monthly.
Proof. exact C11_refuted_l. Qed.
Print Assumptions C11_refuted.
Example C11_case : whole_schedule (week_schedule 8 17 1 5) 8 17 1 5 /\ clock_schedule 8 17 1 5 /\ ~ (5 < 1)%Z.
Proof. repeat split; try lia; discriminate. Qed.

(** C20: any finite schedule. *)
Theorem C20_week : forall (po : population_t R), exists a b c,
  let oc := scheduleAndOccupancy (map_population Fin po) in
  oc_wk_day oc = Fin a /\ oc_wk_nt oc = Fin b /\ oc_wke_tot oc = Fin c /\ a + b + c = 1.
Proof. exact C20_week_l. Qed.
Print Assumptions C20_week.
Theorem C20_months : forall (po : population_t R) m, (m < 12)%nat -> exists a b c d,
  let oc := scheduleAndOccupancy (map_population Fin po) in
  nth_error (oc_wkOcc oc) m = Some (Fin a) /\ nth_error (oc_wkUnocc oc) m = Some (Fin b) /\
  nth_error (oc_weOcc oc) m = Some (Fin c) /\ nth_error (oc_weUnocc oc) m = Some (Fin d) /\ a + b + c + d = month_megaseconds m.
Proof. exact C20_months_l. Qed.
Print Assumptions C20_months.
(** They are parts of the week: none is negative, except for the schedule of C22. *)
Theorem C20_sign : forall (po : population_t R) hs he ds de,
  whole_schedule po hs he ds de -> clock_schedule hs he ds de -> de <> (ds - 1)%Z ->
  exists a b c, let oc := scheduleAndOccupancy (map_population Fin po) in
  oc_wk_day oc = Fin a /\ oc_wk_nt oc = Fin b /\ oc_wke_tot oc = Fin c /\ 0 <= a /\ 0 <= b /\ 0 <= c.
Proof. exact C20_sign_l. Qed.
Print Assumptions C20_sign.
Example C20_case : month_megaseconds 1 = 28 * 86400 / 1000000 /\ clock_schedule 8 17 1 5 /\ 5%Z <> (1 - 1)%Z.
Proof. repeat split; try lia; discriminate. Qed.

(** C21: the two masks are complementary, for every number type. *)
Theorem C21_complement : forall T (N : Num T) (po : population_t T) h, (h < 24)%nat -> let oc := scheduleAndOccupancy po in
  (nth_error (oc_clockOcc oc) h = Some (zn 1) /\ nth_error (oc_clockUnocc oc) h = Some (zn 0)) \/
  (nth_error (oc_clockOcc oc) h = Some (zn 0) /\ nth_error (oc_clockUnocc oc) h = Some (zn 1)).
Proof. exact C21_complement_l. Qed.
Print Assumptions C21_complement.
(** The configured hours are used when they start at 7. *)
Theorem C21_from7_partial : forall (po : population_t R) (h : nat) he ds de,
  whole_schedule po 7 he ds de -> (7 <= he <= 24)%Z -> (h < 24)%nat ->
  nth_error (oc_clockOcc (scheduleAndOccupancy (map_population Fin po))) h = Some (Fin (if open_at 7 he (Z.of_nat h) then 1 else 0)).
Proof. exact C21_from7_l. Qed.
Print Assumptions C21_from7_partial.
(** With every other start some hour is wrong. *)
Theorem C21_other : forall (po : population_t R) hs he ds de,
  whole_schedule po hs he ds de -> (0 <= hs)%Z -> (hs < he <= 24)%Z -> hs <> 7%Z ->
  exists h, (h < 24)%nat /\
  nth_error (oc_clockOcc (scheduleAndOccupancy (map_population Fin po))) h <> Some (Fin (if open_at hs he (Z.of_nat h) then 1 else 0)).
Proof. exact C21_other_l. Qed.
Print Assumptions C21_other.
(** An office open from 9 to 17 is treated as occupied at 7. *)
Theorem C21_refuted : exists (po : population_t R) h, whole_schedule po 9 17 1 5 /\ (h < 24)%nat /\ open_at 9 17 (Z.of_nat h) = false /\
  nth_error (oc_clockOcc (scheduleAndOccupancy (map_population Fin po))) h = Some (Fin 1).
Proof. exact C21_refuted_l. Qed.
Print Assumptions C21_refuted.
Example C21_case : whole_schedule (week_schedule 7 18 1 5) 7 18 1 5.
Proof. repeat split. Qed.

(** C22: [d] consecutive days count as [d], except a full week that does not start on day 0. *)
Theorem C22_days_partial : forall (po : population_t R) hs he s d, (0 <= s <= 6)%Z -> (1 <= d <= 7)%Z -> (d < 7 \/ s = 0)%Z ->
  whole_schedule po hs he s (last_day s d) -> daysPerWeek (map_population Fin po) = Fin (IZR d).
Proof. exact C22_days_l. Qed.
Print Assumptions C22_days_partial.
Theorem C22_all_week : forall (po : population_t R) hs he s, (1 <= s <= 6)%Z -> whole_schedule po hs he s (last_day s 7) ->
  daysPerWeek (map_population Fin po) = Fin 0.
Proof. exact C22_all_week_l. Qed.
Print Assumptions C22_all_week.
(** A building occupied every day from day 1 on counts as never occupied, and its week nights as negative. *)
Theorem C22_refuted : exists (po : population_t R) s, (0 <= s <= 6)%Z /\ whole_schedule po 8 17 s (last_day s 7) /\
  daysPerWeek (map_population Fin po) = Fin 0 /\ oc_wk_day (scheduleAndOccupancy (map_population Fin po)) = Fin 0 /\
  exists b, oc_wk_nt (scheduleAndOccupancy (map_population Fin po)) = Fin b /\ b < 0.
Proof. exact C22_refuted_l. Qed.
Print Assumptions C22_refuted.
Example C22_case : last_day 5 4 = 1%Z /\ whole_schedule (week_schedule 8 17 5 (last_day 5 4)) 8 17 5 (last_day 5 4).
Proof. repeat split. Qed.
