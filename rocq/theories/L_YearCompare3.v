(** A windy year as a case for C93. *)
From Coq Require Import Reals Lra Psatz ZArith List Lia.
From Verif Require Import Base Num Xr M_Params M_Hourly M_Map S_RC S_Physical S_Network S_Year S_HourSpec S_Balance S_Compare S_YearCompare E_SmallOffice S_Edit
  L_Xr L_HourlyShape L_HourlyThm4 L_Office L_Office2 L_HourlyBalance2 L_Compare3 L_MonthlyClimate L_YearCompare.
Import ListNotations.
Open Scope R_scope.

(** 14 m/s and 15 degrees, always dark. *)
Definition windy_hour {T} {N : Num T} : weather T := {| we_wind := zn 14; we_temp := zn 15; we_sol := repeat (zn 0) 9 |}.
Definition windy_year {T} {N : Num T} : list (weather T) := repeat windy_hour (Z.to_nat 8760).

Lemma balanced flow : sp_unbalance still_office flow = 0.
Proof.
  unfold sp_unbalance, sp_supply. replace (Rmax (1 / 100000) (ve_fanControlFactor (pa_ventilation still_office))) with 1; [ring|].
  onum. rewrite Rmax_right; lra.
Qed.
Lemma windy_leak t : 18 <= t <= 22 -> sp_stack still_office 15 t <= sp_wind still_office 14.
Proof.
  intros B. unfold sp_stack, sp_wind.
  assert (L : 0 < sp_leak still_office) by (unfold sp_leak; pose proof (Rmax_l (1 / 1000000) (0.19 * ve_n50 (pa_ventilation still_office) * st_buildingHeight (pa_structure still_office))); lra).
  assert (C : ve_dCp (pa_ventilation still_office) = 0.75) by (onum; lra).
  assert (Z : Rmax (1 / 10) (ve_hzone (pa_ventilation still_office)) = 39) by (onum; rewrite Rmax_right; lra).
  rewrite C, Z.
  assert (D : 0 <= Rmax (1 / 100000) (Rabs (15 - t)) <= 7).
  { split; [pose proof (Rmax_l (1 / 100000) (Rabs (15 - t))); lra|]. apply Rmax_lub; [lra|]. rewrite Rabs_left1; lra. }
  assert (K : Rpow (0.5 * 39 * Rmax (1 / 100000) (Rabs (15 - t))) 0.667 <= Rpow (0.75 * (14 * 14)) 0.667) by (apply Rpow_mono; lra).
  assert (P : 0 <= Rpow (0.5 * 39 * Rmax (1 / 100000) (Rabs (15 - t))) 0.667) by (apply Rpow_nonneg; lra).
  revert K P. generalize (Rpow (0.5 * 39 * Rmax (1 / 100000) (Rabs (15 - t))) 0.667) (Rpow (0.75 * (14 * 14)) 0.667). intros u v K P.
  rewrite !Rmult_assoc. apply Rmult_le_compat; try lra; [apply Rmult_le_pos; lra|]. apply Rmult_le_compat_l; lra.
Qed.
Lemma windy_steady : steady_leak still_office 18 22 windy_hour.
Proof.
  intros flow t t' _ B B'. unfold sp_exfiltration. rewrite balanced, Rabs_R0, !Rmult_0_l, !Rminus_0_r.
  replace (we_wind windy_hour) with 14 by (onum; lra). replace (we_temp windy_hour) with 15 by (onum; lra).
  rewrite (Rmax_right _ _ (windy_leak t B)), (Rmax_right _ _ (windy_leak t' B')). reflexivity.
Qed.
Lemma windy_runs x y : exists raw r, simulateRaw (map_params Fin (set_appliances still_office x y)) (map (map_weather Fin) windy_year) no_ratios = Ok (raw, r).
Proof.
  unfold windy_year. rewrite map_repeat. apply simulateRaw_ok.
  - apply office_ints.
  - reflexivity.
  - rewrite repeat_length. lia.
  - intros w Hw. apply repeat_spec in Hw. subst w. reflexivity.
Qed.
Lemma C93_case_l : let p := still_office in
  physical p /\ ordered_setpoints p /\ mass_slow p /\ sources_ok p /\ timetable_of p office_hours /\
  bu_elecApplianceOcc (pa_building p) <= 5 /\ bu_elecApplianceUnocc (pa_building p) <= 1 /\ encloses 18 22 p /\
  (forall w, In w windy_year -> steady_leak p 18 22 w) /\
  (exists raw r, simulateRaw (map_params Fin p) (map (map_weather Fin) windy_year) no_ratios = Ok (raw, r)) /\
  exists raw r, simulateRaw (map_params Fin (set_appliances p 5 1)) (map (map_weather Fin) windy_year) no_ratios = Ok (raw, r).
Proof.
  cbv zeta. split; [exact still_physical|]. split; [exact still_ordered|]. split; [exact office_slow|]. split; [exact office_sources|]. split; [exact still_timetable|].
  split; [onum; lra|]. split; [onum; lra|]. split; [unfold encloses; onum; lra|].
  split; [intros w Hw; apply repeat_spec in Hw; subst w; exact windy_steady|].
  split; [|exact (windy_runs 5 1)]. exact (windy_runs 0 0).
Qed.
