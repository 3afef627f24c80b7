(** A case for C101: the office in a hot, windy and sunny year. *)
From Coq Require Import Reals Lra Psatz ZArith List Lia.
From Verif Require Import Base Num Xr M_Params M_Hourly M_Map S_RC S_Physical S_Network S_Year S_HourSpec S_Balance S_Compare S_YearCompare S_YearClimate S_YearStable S_YearLoad E_SmallOffice S_Edit
  L_Xr L_HourlyR L_HourlyFin L_HourlyFin2 L_HourlyShape L_HourlyThm2 L_HourlyThm4 L_Office L_Office2 L_HourlyBalance L_HourlyBalance2 L_Compare3 L_MonthlyClimate L_YearCompare L_YearCompare3 L_YearClimate2 L_YearLoad L_YearPeak.
Import ListNotations.
Open Scope R_scope.

(** 20 m/s, 30 degrees, 100 W/m2 on every side. *)
Definition hot_hour {T} {N : Num T} : weather T := {| we_wind := zn 20; we_temp := zn 30; we_sol := repeat (zn 100) 9 |}.
Definition hot_year {T} {N : Num T} : list (weather T) := repeat hot_hour (Z.to_nat 8760).
(** The office with appliances of 5 and 1 W/m2. *)
Definition busy_office : params_t R := set_appliances still_office 5 1.
Lemma busy_physical : physical busy_office.
Proof. exact (physical_appliances still_office 5 1 still_physical). Qed.
Lemma busy_sources : sources_ok busy_office.
Proof. destruct office_sources. constructor; try assumption; cbn; lra. Qed.
Lemma hot_leak t : 18 <= t <= 22 -> sp_stack still_office 30 t <= sp_wind still_office 20.
Proof.
  intros B. unfold sp_stack, sp_wind.
  assert (L : 0 < sp_leak still_office) by (unfold sp_leak; pose proof (Rmax_l (1 / 1000000) (0.19 * ve_n50 (pa_ventilation still_office) * st_buildingHeight (pa_structure still_office))); lra).
  assert (C : ve_dCp (pa_ventilation still_office) = 0.75) by (onum; lra).
  assert (Z : Rmax (1 / 10) (ve_hzone (pa_ventilation still_office)) = 39) by (onum; rewrite Rmax_right; lra).
  rewrite C, Z.
  assert (D : 0 <= Rmax (1 / 100000) (Rabs (30 - t)) <= 12).
  { split; [pose proof (Rmax_l (1 / 100000) (Rabs (30 - t))); lra|]. apply Rmax_lub; [lra|]. rewrite Rabs_right; lra. }
  assert (K : Rpow (0.5 * 39 * Rmax (1 / 100000) (Rabs (30 - t))) 0.667 <= Rpow (0.75 * (20 * 20)) 0.667) by (apply Rpow_mono; lra).
  assert (P : 0 <= Rpow (0.5 * 39 * Rmax (1 / 100000) (Rabs (30 - t))) 0.667) by (apply Rpow_nonneg; lra).
  revert K P. generalize (Rpow (0.5 * 39 * Rmax (1 / 100000) (Rabs (30 - t))) 0.667) (Rpow (0.75 * (20 * 20)) 0.667). intros u v K P.
  rewrite !Rmult_assoc. apply Rmult_le_compat; try lra; [apply Rmult_le_pos; lra|]. apply Rmult_le_compat_l; lra.
Qed.
Lemma hot_air : fresh_air_below busy_office 18 22 (sp_wind still_office 20 + sp_supply still_office (ve_supplyRate (pa_ventilation still_office))) hot_hour.
Proof.
  intros flow t F B. change (sp_total busy_office) with (sp_total still_office). change (ve_supplyRate (pa_ventilation busy_office)) with (ve_supplyRate (pa_ventilation still_office)) in F.
  unfold sp_total, sp_envelope, sp_exfiltration. rewrite balanced, Rabs_R0, !Rmult_0_l, !Rminus_0_r.
  replace (we_wind hot_hour) with 20 by (onum; lra). replace (we_temp hot_hour) with 30 by (onum; lra).
  rewrite (Rmax_right _ _ (hot_leak t B)).
  assert (W : 0 <= sp_wind still_office 20).
  { eapply Rle_trans; [|exact (hot_leak 20 ltac:(lra))]. unfold sp_stack. apply Rmult_le_pos; [|apply Rpow_nonneg; apply Rmult_le_pos; [apply Rmult_le_pos; [lra|]|]].
    - unfold sp_leak. pose proof (Rmax_l (1 / 1000000) (0.19 * ve_n50 (pa_ventilation still_office) * st_buildingHeight (pa_structure still_office))). lra.
    - pose proof (Rmax_l (1 / 10) (ve_hzone (pa_ventilation still_office))). lra.
    - pose proof (Rmax_l (1 / 100000) (Rabs (30 - 20))). lra. }
  rewrite (Rmax_right 0 (sp_wind still_office 20) W), (Rmax_left 0 0 (Rle_refl 0)).
  pose proof (supply_nonneg still_office _ still_physical (phy_supply _ still_physical)) as S.
  destruct F as [-> | ->]; [|lra]. replace (sp_supply still_office 0) with 0; [lra|]. unfold sp_supply, sp_vent. unfold Rdiv. ring.
Qed.
Lemma busy_internal k : sp_internal busy_office (equip_at busy_office office_hours k) (lights_at busy_office office_hours k) (we_sol hot_hour) <= 5.
Proof.
  unfold sp_internal. assert (L : lights_at busy_office office_hours k = 0) by (unfold lights_at; destruct (occupied _ _); onum; lra). rewrite L, Rmult_0_r, Rmult_0_l, Rplus_0_r.
  unfold equip_at. destruct (occupied _ _); cbn; lra.
Qed.
Lemma C101_case_l : let p := busy_office in let V := sp_wind still_office 20 + sp_supply still_office (ve_supplyRate (pa_ventilation still_office)) in
  let S := sp_solar p (we_sol hot_hour) in
  physical p /\ ordered_setpoints p /\ mass_slow p /\ recovery_ok p /\ sources_ok p /\ timetable_of p office_hours /\ encloses 18 22 p /\
  cl_tempOcc (pa_cooling p) <= 22 /\ cl_tempUnocc (pa_cooling p) <= 22 /\ ve_preheat (pa_ventilation p) <= 30 /\ 0 <= S /\
  (forall w, In w hot_year -> we_temp w <= 30 /\ gains_below p office_hours S 5 w /\ fresh_air_below p 18 22 V w) /\
  exists raw r, simulateRaw (map_params Fin p) (map (map_weather Fin) hot_year) no_ratios = Ok (raw, r).
Proof.
  cbv zeta. split; [exact busy_physical|]. split; [exact still_ordered|]. split; [exact office_slow|]. split; [exact still_recovery|]. split; [exact busy_sources|]. split; [exact still_timetable|].
  split; [unfold encloses; onum; lra|]. split; [onum; lra|]. split; [onum; lra|]. split; [onum; lra|].
  split; [apply (solar_nonneg busy_office (we_sol hot_hour) busy_physical busy_sources); intros v V; apply repeat_spec in V; subst v; onum; lra|]. split.
  - intros w Hw. apply repeat_spec in Hw. subst w. split; [onum; lra|]. split; [|exact hot_air]. split; [apply Rle_refl|exact busy_internal].
  - unfold hot_year. rewrite map_repeat. apply simulateRaw_ok.
    + apply office_ints.
    + reflexivity.
    + rewrite repeat_length. lia.
    + intros w Hw. apply repeat_spec in Hw. subst w. reflexivity.
Qed.
