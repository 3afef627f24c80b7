(** Which parameters the end uses of the monthly engine depend on. *)
From Coq Require Import String List ZArith Lia Bool.
From Verif Require Import Base Num M_Params M_UserModel M_Monthly S_Monthly S_Loading S_Results S_Inputs
  E_SmallOffice L_UserModel L_HourlyOut L_Monthly3 L_Inputs.
Import ListNotations.
Open Scope list_scope.

Section Need.
Context {T : Type} {N : Num T}.
(** [u] with the parameters of [u'] that the needs do not depend on. *)
Definition monthly_need_patch (u u' : building_model T) : building_model T :=
  {| bm_params := {|
    pa_structure := {| st_floorArea := st_floorArea (pa_structure (bm_params u)); st_wallArea := st_wallArea (pa_structure (bm_params u)); st_windowArea := st_windowArea (pa_structure (bm_params u)); st_wallU := st_wallU (pa_structure (bm_params u)); st_windowU := st_windowU (pa_structure (bm_params u)); st_wallEmissivity := st_wallEmissivity (pa_structure (bm_params u)); st_wallAbsorption := st_wallAbsorption (pa_structure (bm_params u)); st_windowSDF := st_windowSDF (pa_structure (bm_params u)); st_windowSHGC := st_windowSHGC (pa_structure (bm_params u)); st_windowSCF := st_windowSCF (pa_structure (bm_params u)); st_interiorHeatCapacity := st_interiorHeatCapacity (pa_structure (bm_params u)); st_wallHeatCapacity := st_wallHeatCapacity (pa_structure (bm_params u)); st_buildingHeight := st_buildingHeight (pa_structure (bm_params u)); st_infiltrationRate := st_infiltrationRate (pa_structure (bm_params u)); st_R_se := st_R_se (pa_structure (bm_params u')); st_irradianceForMaxShadingUse := st_irradianceForMaxShadingUse (pa_structure (bm_params u')); st_shadingFactorAtMaxUse := st_shadingFactorAtMaxUse (pa_structure (bm_params u')); st_totalAreaPerFloorArea := st_totalAreaPerFloorArea (pa_structure (bm_params u')); st_win_ff := st_win_ff (pa_structure (bm_params u)); st_win_F_W := st_win_F_W (pa_structure (bm_params u)); st_R_sc_ext := st_R_sc_ext (pa_structure (bm_params u)) |};
    pa_heating := {| ht_tempOcc := ht_tempOcc (pa_heating (bm_params u)); ht_tempUnocc := ht_tempUnocc (pa_heating (bm_params u)); ht_hvacLossFactor := ht_hvacLossFactor (pa_heating (bm_params u')); ht_efficiency := ht_efficiency (pa_heating (bm_params u')); ht_energyType := ht_energyType (pa_heating (bm_params u')); ht_pumpControlReduction := ht_pumpControlReduction (pa_heating (bm_params u')); ht_hotWaterDemand := ht_hotWaterDemand (pa_heating (bm_params u')); ht_hotWaterDistributionEfficiency := ht_hotWaterDistributionEfficiency (pa_heating (bm_params u')); ht_hotWaterSystemEfficiency := ht_hotWaterSystemEfficiency (pa_heating (bm_params u')); ht_hotWaterEnergyType := ht_hotWaterEnergyType (pa_heating (bm_params u')); ht_hotcoldWasteFactor := ht_hotcoldWasteFactor (pa_heating (bm_params u')); ht_forcedAir := ht_forcedAir (pa_heating (bm_params u')); ht_dT_supp := ht_dT_supp (pa_heating (bm_params u')); ht_E_pumps := ht_E_pumps (pa_heating (bm_params u')); ht_T_ctrl_flag := ht_T_ctrl_flag (pa_heating (bm_params u)); ht_a_H0 := ht_a_H0 (pa_heating (bm_params u)); ht_tau_H0 := ht_tau_H0 (pa_heating (bm_params u)); ht_DH_YesNo := ht_DH_YesNo (pa_heating (bm_params u')); ht_eta_DH_network := ht_eta_DH_network (pa_heating (bm_params u')); ht_eta_DH_sys := ht_eta_DH_sys (pa_heating (bm_params u')); ht_frac_DH_free := ht_frac_DH_free (pa_heating (bm_params u')); ht_dhw_tset := ht_dhw_tset (pa_heating (bm_params u')); ht_dhw_tsupply := ht_dhw_tsupply (pa_heating (bm_params u')) |};
    pa_cooling := {| cl_tempOcc := cl_tempOcc (pa_cooling (bm_params u)); cl_tempUnocc := cl_tempUnocc (pa_cooling (bm_params u)); cl_cop := cl_cop (pa_cooling (bm_params u')); cl_partialLoadValue := cl_partialLoadValue (pa_cooling (bm_params u')); cl_hvacLossFactor := cl_hvacLossFactor (pa_cooling (bm_params u')); cl_pumpControlReduction := cl_pumpControlReduction (pa_cooling (bm_params u')); cl_forcedAir := cl_forcedAir (pa_cooling (bm_params u')); cl_T_ctrl_flag := cl_T_ctrl_flag (pa_cooling (bm_params u)); cl_dT_supp := cl_dT_supp (pa_cooling (bm_params u')); cl_DC_YesNo := cl_DC_YesNo (pa_cooling (bm_params u')); cl_eta_DC_network := cl_eta_DC_network (pa_cooling (bm_params u')); cl_eta_DC_COP := cl_eta_DC_COP (pa_cooling (bm_params u')); cl_eta_DC_frac_abs := cl_eta_DC_frac_abs (pa_cooling (bm_params u')); cl_eta_DC_COP_abs := cl_eta_DC_COP_abs (pa_cooling (bm_params u')); cl_frac_DC_free := cl_frac_DC_free (pa_cooling (bm_params u')); cl_E_pumps := cl_E_pumps (pa_cooling (bm_params u')) |};
    pa_ventilation := {| ve_supplyRate := ve_supplyRate (pa_ventilation (bm_params u)); ve_supplyDifference := ve_supplyDifference (pa_ventilation (bm_params u)); ve_heatRecoveryEfficiency := ve_heatRecoveryEfficiency (pa_ventilation (bm_params u)); ve_exhaustAirRecirculated := ve_exhaustAirRecirculated (pa_ventilation (bm_params u)); ve_type := ve_type (pa_ventilation (bm_params u)); ve_fanPower := ve_fanPower (pa_ventilation (bm_params u')); ve_fanControlFactor := ve_fanControlFactor (pa_ventilation (bm_params u')); ve_preheat := ve_preheat (pa_ventilation (bm_params u')); ve_n50 := ve_n50 (pa_ventilation (bm_params u')); ve_hzone := ve_hzone (pa_ventilation (bm_params u')); ve_p_exp := ve_p_exp (pa_ventilation (bm_params u')); ve_zone_frac := ve_zone_frac (pa_ventilation (bm_params u)); ve_stack_exp := ve_stack_exp (pa_ventilation (bm_params u)); ve_stack_coeff := ve_stack_coeff (pa_ventilation (bm_params u)); ve_wind_exp := ve_wind_exp (pa_ventilation (bm_params u)); ve_wind_coeff := ve_wind_coeff (pa_ventilation (bm_params u)); ve_dCp := ve_dCp (pa_ventilation (bm_params u)); ve_vent_rate_flag := ve_vent_rate_flag (pa_ventilation (bm_params u)); ve_H_ve := ve_H_ve (pa_ventilation (bm_params u)) |};
    pa_lighting := {| li_densityOcc := li_densityOcc (pa_lighting (bm_params u)); li_densityUnocc := li_densityUnocc (pa_lighting (bm_params u)); li_dimmingFraction := li_dimmingFraction (pa_lighting (bm_params u)); li_exteriorEnergy := li_exteriorEnergy (pa_lighting (bm_params u')); li_n_day_start := li_n_day_start (pa_lighting (bm_params u)); li_n_day_end := li_n_day_end (pa_lighting (bm_params u)); li_n_weeks := li_n_weeks (pa_lighting (bm_params u)); li_elecInternalGains := li_elecInternalGains (pa_lighting (bm_params u')); li_permLightPowerDensity := li_permLightPowerDensity (pa_lighting (bm_params u')); li_presenceSensorAd := li_presenceSensorAd (pa_lighting (bm_params u')); li_automaticAd := li_automaticAd (pa_lighting (bm_params u')); li_presenceAutoAd := li_presenceAutoAd (pa_lighting (bm_params u')); li_manualSwitchAd := li_manualSwitchAd (pa_lighting (bm_params u')); li_presenceSensorLux := li_presenceSensorLux (pa_lighting (bm_params u')); li_automaticLux := li_automaticLux (pa_lighting (bm_params u')); li_presenceAutoLux := li_presenceAutoLux (pa_lighting (bm_params u')); li_manualSwitchLux := li_manualSwitchLux (pa_lighting (bm_params u')); li_naturallyLightedArea := li_naturallyLightedArea (pa_lighting (bm_params u')) |};
    pa_building := {| bu_lightingOccupancySensor := bu_lightingOccupancySensor (pa_building (bm_params u)); bu_constantIllumination := bu_constantIllumination (pa_building (bm_params u)); bu_elecApplianceOcc := bu_elecApplianceOcc (pa_building (bm_params u)); bu_elecApplianceUnocc := bu_elecApplianceUnocc (pa_building (bm_params u)); bu_gasApplianceOcc := bu_gasApplianceOcc (pa_building (bm_params u)); bu_gasApplianceUnocc := bu_gasApplianceUnocc (pa_building (bm_params u)); bu_bem := bu_bem (pa_building (bm_params u)); bu_externalEquipment := bu_externalEquipment (pa_building (bm_params u')) |};
    pa_population := pa_population (bm_params u);
    pa_settings := pa_settings (bm_params u');
    pa_phys := {| ph_rhoCpAir := ph_rhoCpAir (pa_phys (bm_params u)); ph_rhoCpWater := ph_rhoCpWater (pa_phys (bm_params u')) |};
    pa_terrain := pa_terrain (bm_params u) |};
     bm_weatherFilePath := bm_weatherFilePath u' |}.

Lemma key_in (k : string) l : existsb (String.eqb k) l = true -> In k l.
Proof. intros E. apply existsb_exists in E. destruct E as (x & I & E). apply String.eqb_eq in E. subst x. exact I. Qed.
Lemma rate_flag_same keys (u u' : building_model T) : In "vent_rate_flag"%string keys -> same_parameters keys u u' ->
  ve_vent_rate_flag (pa_ventilation (bm_params u')) = ve_vent_rate_flag (pa_ventilation (bm_params u)).
Proof. intros I S. destruct (S _ I) as (_ & _ & _ & _ & E). exact (E _ eq_refl). Qed.
Lemma need_patched (u u' : building_model T) : same_parameters monthly_need_inputs u u' -> u' = monthly_need_patch u u'.
Proof.
  intros S. assert (V := rate_flag_same monthly_need_inputs u u' (key_in "vent_rate_flag" monthly_need_inputs eq_refl) S).
  open_buildings u u'. cbn in V. identify S. subst. reflexivity.
Qed.

Lemma needs_same (u u' : building_model T) w m m' : same_parameters monthly_need_inputs u u' ->
  run (bm_params u) w m -> run (bm_params u') w m' ->
  ne_ht (mr_needs m') = ne_ht (mr_needs m) /\ ne_cl (mr_needs m') = ne_cl (mr_needs m) /\
  ne_ht_yr (mr_needs m') = ne_ht_yr (mr_needs m) /\ ne_cl_yr (mr_needs m') = ne_cl_yr (mr_needs m) /\
  te_h (mr_temps m') = te_h (mr_temps m) /\ te_c (mr_temps m') = te_c (mr_temps m) /\ mr_occ m' = mr_occ m.
Proof.
  intros S R R'. rewrite (need_patched u u' S) in R'. clear S. revert R'. generalize u'. clear u'. intros u' R'.
  assert (E1 : mr_occ m' = mr_occ m) by (rewrite (rn_oc _ _ _ R'), (rn_oc _ _ _ R); reflexivity).
  assert (E2 : mr_bd m' = mr_bd m).
  { pose proof (rn_bd _ _ _ R') as B'. pose proof (rn_bd _ _ _ R) as B. rewrite E1, B in B'. symmetry. exact (Ok_inj _ _ B'). }
  assert (E3 : lu_unocc (mr_lu m') = lu_unocc (mr_lu m) /\ lu_tot (mr_lu m') = lu_tot (mr_lu m)).
  { rewrite (rn_lu _ _ _ R'), (rn_lu _ _ _ R), E2. split; reflexivity. }
  destruct E3 as [E3 E4].
  assert (E5 : mr_H_tr m' = mr_H_tr m) by (rewrite (rn_H _ _ _ R'), (rn_H _ _ _ R); reflexivity).
  assert (E6 : mr_Esol m' = mr_Esol m).
  { destruct (rn_sol _ _ _ R') as (ws' & W' & ->). destruct (rn_sol _ _ _ R) as (ws & W & ->).
    assert (E : Ok ws' = Ok ws) by (rewrite <- W, <- W'; reflexivity). apply Ok_inj in E. subst ws'. reflexivity. }
  assert (E7 : mr_gains m' = mr_gains m).
  { rewrite (rn_gains _ _ _ R'), (rn_gains _ _ _ R), E1. unfold heatGainsAndLosses. rewrite E3, E4. reflexivity. }
  assert (E8 : mr_temps m' = mr_temps m).
  { pose proof (rn_temps _ _ _ R') as B'. pose proof (rn_temps _ _ _ R) as B. cbv zeta in B, B'. rewrite E1, E2, E5, E6, E7 in B'.
    apply Ok_inj. rewrite <- B, <- B'. reflexivity. }
  assert (E9 : mr_Hve_ht m' = mr_Hve_ht m) by (rewrite (rn_Hve_ht _ _ _ R'), (rn_Hve_ht _ _ _ R), E1, E8; reflexivity).
  assert (E10 : mr_Hve_cl m' = mr_Hve_cl m) by (rewrite (rn_Hve_cl _ _ _ R'), (rn_Hve_cl _ _ _ R), E1, E8; reflexivity).
  rewrite (rn_needs _ _ _ R'), (rn_needs _ _ _ R), E1, E5, E6, E7, E8, E9, E10. repeat split.
Qed.

Variables (u u' : building_model T) (w : mweather T) (m m' : mresult T).
Hypothesis (R : run (bm_params u) w m) (R' : run (bm_params u') w m').

Lemma occ_same : same_parameters occupancy_inputs u u' -> mr_occ m' = mr_occ m.
Proof.
  intros S. rewrite (rn_oc _ _ _ R'), (rn_oc _ _ _ R). clear R R'. open_buildings u u'. identify S. reflexivity.
Qed.
Lemma need_floor : same_parameters monthly_need_inputs u u' -> st_floorArea (pa_structure (bm_params u')) = st_floorArea (pa_structure (bm_params u)).
Proof. intros S. rewrite (need_patched u u' S). reflexivity. Qed.
Lemma sundown_same : bd_hrsSunDown (mr_bd m') = bd_hrsSunDown (mr_bd m).
Proof.
  pose proof (rn_bd _ _ _ R') as B'. pose proof (rn_bd _ _ _ R) as B. unfold solarRadiationBreakdown in B, B'.
  destruct (omap fracSunDown (mw_mhEgh w)) as [down| |]; [cbn [obind] in B, B'|discriminate B..].
  apply Ok_inj in B, B'. rewrite <- B, <- B'. reflexivity.
Qed.

Lemma monthly_column_same k : same_parameters (monthly_inputs k) u u' ->
  nth_error (columns (bm_params u') m') k = nth_error (columns (bm_params u) m) k.
Proof.
  intros S. unfold columns, outputColumns.
  destruct k as [|[|[|[|[|[|[|[|[|[|[|[|[|k]]]]]]]]]]]]]; unfold monthly_inputs in S; cbn [nth nth_error] in S |- *; [f_equal ..|destruct k; reflexivity].
  - (* electric heating *) apply same_app in S. destruct S as [S S2].
    destruct (needs_same _ _ _ _ _ S R R') as (E1 & E2 & E3 & E4 & E5 & E6 & E7).
    rewrite (need_floor S). f_equal. rewrite (rn_hvac _ _ _ R'), (rn_hvac _ _ _ R), E1, E2, E3, E4.
    clear - S2. generalize (ne_ht (mr_needs m)), (ne_cl (mr_needs m)), (ne_ht_yr (mr_needs m)), (ne_cl_yr (mr_needs m)). intros a b c d.
    open_buildings u u'. identify S2. reflexivity.
  - (* electric cooling *) apply same_app in S. destruct S as [S S2].
    destruct (needs_same _ _ _ _ _ S R R') as (E1 & E2 & E3 & E4 & E5 & E6 & E7).
    rewrite (need_floor S). f_equal. rewrite (rn_hvac _ _ _ R'), (rn_hvac _ _ _ R), E1, E2, E3, E4.
    clear - S2. generalize (ne_ht (mr_needs m)), (ne_cl (mr_needs m)), (ne_ht_yr (mr_needs m)), (ne_cl_yr (mr_needs m)). intros a b c d.
    open_buildings u u'. identify S2. reflexivity.
  - (* interior lights *) rewrite (rn_lu _ _ _ R'), (rn_lu _ _ _ R), sundown_same.
    generalize (bd_hrsSunDown (mr_bd m)). intros a. clear - S. open_buildings u u'. identify S. reflexivity.
  - (* exterior lights *) rewrite (rn_lu _ _ _ R'), (rn_lu _ _ _ R), sundown_same.
    generalize (bd_hrsSunDown (mr_bd m)). intros a. clear - S. open_buildings u u'. identify S. reflexivity.
  - (* fans *) apply same_app in S. destruct S as [S S2].
    destruct (needs_same _ _ _ _ _ S R R') as (E1 & E2 & E3 & E4 & E5 & E6 & E7).
    assert (F : forall p q, run p w q -> ne_fan (mr_needs q) = fanEnergyMonthly p (oc_wk_day (mr_occ q)) (te_h (mr_temps q)) (te_c (mr_temps q)) (ne_ht (mr_needs q)) (ne_cl (mr_needs q))).
    { intros p q Q. rewrite (rn_needs _ _ _ Q). reflexivity. }
    rewrite (F _ _ R'), (F _ _ R), E1, E2, E5, E6, E7.
    generalize (ne_ht (mr_needs m)), (ne_cl (mr_needs m)), (te_h (mr_temps m)), (te_c (mr_temps m)), (oc_wk_day (mr_occ m)). intros a b c d e.
    rewrite (need_patched u u' S) in S2 |- *. clear - S2. revert S2. generalize u'. clear u'. intros u' S2.
    unfold fanEnergyMonthly.
    assert (X : ht_dT_supp (pa_heating (bm_params u')) = ht_dT_supp (pa_heating (bm_params u)) /\
                cl_dT_supp (pa_cooling (bm_params u')) = cl_dT_supp (pa_cooling (bm_params u)) /\
                ve_fanPower (pa_ventilation (bm_params u')) = ve_fanPower (pa_ventilation (bm_params u)) /\
                ve_fanControlFactor (pa_ventilation (bm_params u')) = ve_fanControlFactor (pa_ventilation (bm_params u))).
    { open_buildings u u'. identify S2. repeat split. }
    destruct X as (X1 & X2 & X3 & X4). cbn [monthly_need_patch bm_params pa_heating pa_cooling pa_ventilation ht_dT_supp cl_dT_supp ve_fanPower ve_fanControlFactor].
    rewrite X1, X2, X3, X4. reflexivity.
  - (* pumps *) apply same_app in S. destruct S as [S S2].
    destruct (needs_same _ _ _ _ _ S R R') as (E1 & E2 & E3 & E4 & E5 & E6 & E7).
    rewrite (rn_pump _ _ _ R'), (rn_pump _ _ _ R), E1, E2, E3, E4. unfold pump. rewrite (need_floor S). f_equal.
    clear - S2. generalize (ne_ht (mr_needs m)), (ne_cl (mr_needs m)), (ne_ht_yr (mr_needs m)), (ne_cl_yr (mr_needs m)), (st_floorArea (pa_structure (bm_params u))). intros a b c d e.
    open_buildings u u'. identify S2. reflexivity.
  - (* plugs *) rewrite occ_same by (apply same_app in S; apply S). generalize (oc_wk_day (mr_occ m)). intros a. clear - S. open_buildings u u'. identify S. reflexivity.
  - (* hot water *) rewrite (rn_dhw _ _ _ R'), (rn_dhw _ _ _ R). clear - S. open_buildings u u'. identify S. reflexivity.
  - (* gas heating *) apply same_app in S. destruct S as [S S3]. apply same_app in S. destruct S as [S S2].
    destruct (needs_same _ _ _ _ _ S R R') as (E1 & E2 & E3 & E4 & E5 & E6 & E7).
    rewrite (need_floor S). f_equal. rewrite (rn_hvac _ _ _ R'), (rn_hvac _ _ _ R), E1, E2, E3, E4.
    clear - S2 S3. generalize (ne_ht (mr_needs m)), (ne_cl (mr_needs m)), (ne_ht_yr (mr_needs m)), (ne_cl_yr (mr_needs m)). intros a b c d.
    open_buildings u u'. identify S2. identify S3. reflexivity.
  - (* gas cooling *) apply same_app in S. destruct S as [S S2].
    destruct (needs_same _ _ _ _ _ S R R') as (E1 & E2 & E3 & E4 & E5 & E6 & E7).
    rewrite (need_floor S). f_equal. rewrite (rn_hvac _ _ _ R'), (rn_hvac _ _ _ R), E1, E2, E3, E4.
    clear - S2. generalize (ne_ht (mr_needs m)), (ne_cl (mr_needs m)), (ne_ht_yr (mr_needs m)), (ne_cl_yr (mr_needs m)). intros a b c d.
    open_buildings u u'. identify S2. reflexivity.
  - (* gas plugs *) rewrite occ_same by (apply same_app in S; apply S). generalize (oc_wk_day (mr_occ m)). intros a. clear - S. open_buildings u u'. identify S. reflexivity.
  - (* hot water *) rewrite (rn_dhw _ _ _ R'), (rn_dhw _ _ _ R). clear - S. open_buildings u u'. identify S. reflexivity.
Qed.
End Need.

Section Table.
Context {T : Type} {N : Num T}.
Lemma monthly_depends (u u' : building_model T) w rows rows' k :
  same_parameters (monthly_inputs k) u u' ->
  simulateMonthly (bm_params u) w = Ok rows -> simulateMonthly (bm_params u') w = Ok rows' ->
  map (fun row => nth_error row k) rows' = map (fun row => nth_error row k) rows.
Proof.
  intros S H H'.
  destruct (simulateMonthly_cases _ _ _ H) as (m & R & [Sl Sh] & C). destruct (simulateMonthly_cases _ _ _ H') as (m' & R' & [Sl' Sh'] & C').
  pose proof (monthly_column_same _ _ _ _ _ R R' k S) as E.
  destruct (nth_error (columns (bm_params u) m) k) as [v|] eqn:Ev.
  - pose proof (is_series_slot _ _ _ (C k v Ev)) as X. pose proof (is_series_slot _ _ _ (C' k v E)) as X'.
    unfold L_HourlyShape.slot_series in X, X'. congruence.
  - apply nth_error_None in Ev. unfold columns, outputColumns in Ev. cbn [length] in Ev.
    transitivity (map (fun _ : list T => @None T) rows).
    + rewrite <- (zeroes_same None rows rows') by lia. apply map_ext_in. intros row I.
      rewrite Forall_forall in Sh'. apply nth_error_None. rewrite (Sh' _ I). exact Ev.
    + apply map_ext_in. intros row I. rewrite Forall_forall in Sh. symmetry. apply nth_error_None. rewrite (Sh _ I). exact Ev.
Qed.

(** [u] with the unused parameters of [u']. *)
Definition monthly_patch (u u' : building_model T) : building_model T :=
  {| bm_params := {|
    pa_structure := {| st_floorArea := st_floorArea (pa_structure (bm_params u)); st_wallArea := st_wallArea (pa_structure (bm_params u)); st_windowArea := st_windowArea (pa_structure (bm_params u)); st_wallU := st_wallU (pa_structure (bm_params u)); st_windowU := st_windowU (pa_structure (bm_params u)); st_wallEmissivity := st_wallEmissivity (pa_structure (bm_params u)); st_wallAbsorption := st_wallAbsorption (pa_structure (bm_params u)); st_windowSDF := st_windowSDF (pa_structure (bm_params u)); st_windowSHGC := st_windowSHGC (pa_structure (bm_params u)); st_windowSCF := st_windowSCF (pa_structure (bm_params u)); st_interiorHeatCapacity := st_interiorHeatCapacity (pa_structure (bm_params u)); st_wallHeatCapacity := st_wallHeatCapacity (pa_structure (bm_params u)); st_buildingHeight := st_buildingHeight (pa_structure (bm_params u)); st_infiltrationRate := st_infiltrationRate (pa_structure (bm_params u)); st_R_se := st_R_se (pa_structure (bm_params u')); st_irradianceForMaxShadingUse := st_irradianceForMaxShadingUse (pa_structure (bm_params u')); st_shadingFactorAtMaxUse := st_shadingFactorAtMaxUse (pa_structure (bm_params u')); st_totalAreaPerFloorArea := st_totalAreaPerFloorArea (pa_structure (bm_params u')); st_win_ff := st_win_ff (pa_structure (bm_params u)); st_win_F_W := st_win_F_W (pa_structure (bm_params u)); st_R_sc_ext := st_R_sc_ext (pa_structure (bm_params u)) |};
    pa_heating := {| ht_tempOcc := ht_tempOcc (pa_heating (bm_params u)); ht_tempUnocc := ht_tempUnocc (pa_heating (bm_params u)); ht_hvacLossFactor := ht_hvacLossFactor (pa_heating (bm_params u)); ht_efficiency := ht_efficiency (pa_heating (bm_params u)); ht_energyType := ht_energyType (pa_heating (bm_params u)); ht_pumpControlReduction := ht_pumpControlReduction (pa_heating (bm_params u)); ht_hotWaterDemand := ht_hotWaterDemand (pa_heating (bm_params u)); ht_hotWaterDistributionEfficiency := ht_hotWaterDistributionEfficiency (pa_heating (bm_params u)); ht_hotWaterSystemEfficiency := ht_hotWaterSystemEfficiency (pa_heating (bm_params u)); ht_hotWaterEnergyType := ht_hotWaterEnergyType (pa_heating (bm_params u)); ht_hotcoldWasteFactor := ht_hotcoldWasteFactor (pa_heating (bm_params u)); ht_forcedAir := ht_forcedAir (pa_heating (bm_params u')); ht_dT_supp := ht_dT_supp (pa_heating (bm_params u)); ht_E_pumps := ht_E_pumps (pa_heating (bm_params u)); ht_T_ctrl_flag := ht_T_ctrl_flag (pa_heating (bm_params u)); ht_a_H0 := ht_a_H0 (pa_heating (bm_params u)); ht_tau_H0 := ht_tau_H0 (pa_heating (bm_params u)); ht_DH_YesNo := ht_DH_YesNo (pa_heating (bm_params u)); ht_eta_DH_network := ht_eta_DH_network (pa_heating (bm_params u)); ht_eta_DH_sys := ht_eta_DH_sys (pa_heating (bm_params u)); ht_frac_DH_free := ht_frac_DH_free (pa_heating (bm_params u)); ht_dhw_tset := ht_dhw_tset (pa_heating (bm_params u)); ht_dhw_tsupply := ht_dhw_tsupply (pa_heating (bm_params u)) |};
    pa_cooling := {| cl_tempOcc := cl_tempOcc (pa_cooling (bm_params u)); cl_tempUnocc := cl_tempUnocc (pa_cooling (bm_params u)); cl_cop := cl_cop (pa_cooling (bm_params u)); cl_partialLoadValue := cl_partialLoadValue (pa_cooling (bm_params u)); cl_hvacLossFactor := cl_hvacLossFactor (pa_cooling (bm_params u)); cl_pumpControlReduction := cl_pumpControlReduction (pa_cooling (bm_params u)); cl_forcedAir := cl_forcedAir (pa_cooling (bm_params u')); cl_T_ctrl_flag := cl_T_ctrl_flag (pa_cooling (bm_params u)); cl_dT_supp := cl_dT_supp (pa_cooling (bm_params u)); cl_DC_YesNo := cl_DC_YesNo (pa_cooling (bm_params u)); cl_eta_DC_network := cl_eta_DC_network (pa_cooling (bm_params u)); cl_eta_DC_COP := cl_eta_DC_COP (pa_cooling (bm_params u)); cl_eta_DC_frac_abs := cl_eta_DC_frac_abs (pa_cooling (bm_params u)); cl_eta_DC_COP_abs := cl_eta_DC_COP_abs (pa_cooling (bm_params u)); cl_frac_DC_free := cl_frac_DC_free (pa_cooling (bm_params u)); cl_E_pumps := cl_E_pumps (pa_cooling (bm_params u)) |};
    pa_ventilation := {| ve_supplyRate := ve_supplyRate (pa_ventilation (bm_params u)); ve_supplyDifference := ve_supplyDifference (pa_ventilation (bm_params u)); ve_heatRecoveryEfficiency := ve_heatRecoveryEfficiency (pa_ventilation (bm_params u)); ve_exhaustAirRecirculated := ve_exhaustAirRecirculated (pa_ventilation (bm_params u)); ve_type := ve_type (pa_ventilation (bm_params u)); ve_fanPower := ve_fanPower (pa_ventilation (bm_params u)); ve_fanControlFactor := ve_fanControlFactor (pa_ventilation (bm_params u)); ve_preheat := ve_preheat (pa_ventilation (bm_params u')); ve_n50 := ve_n50 (pa_ventilation (bm_params u')); ve_hzone := ve_hzone (pa_ventilation (bm_params u')); ve_p_exp := ve_p_exp (pa_ventilation (bm_params u')); ve_zone_frac := ve_zone_frac (pa_ventilation (bm_params u)); ve_stack_exp := ve_stack_exp (pa_ventilation (bm_params u)); ve_stack_coeff := ve_stack_coeff (pa_ventilation (bm_params u)); ve_wind_exp := ve_wind_exp (pa_ventilation (bm_params u)); ve_wind_coeff := ve_wind_coeff (pa_ventilation (bm_params u)); ve_dCp := ve_dCp (pa_ventilation (bm_params u)); ve_vent_rate_flag := ve_vent_rate_flag (pa_ventilation (bm_params u)); ve_H_ve := ve_H_ve (pa_ventilation (bm_params u)) |};
    pa_lighting := {| li_densityOcc := li_densityOcc (pa_lighting (bm_params u)); li_densityUnocc := li_densityUnocc (pa_lighting (bm_params u)); li_dimmingFraction := li_dimmingFraction (pa_lighting (bm_params u)); li_exteriorEnergy := li_exteriorEnergy (pa_lighting (bm_params u)); li_n_day_start := li_n_day_start (pa_lighting (bm_params u)); li_n_day_end := li_n_day_end (pa_lighting (bm_params u)); li_n_weeks := li_n_weeks (pa_lighting (bm_params u)); li_elecInternalGains := li_elecInternalGains (pa_lighting (bm_params u')); li_permLightPowerDensity := li_permLightPowerDensity (pa_lighting (bm_params u')); li_presenceSensorAd := li_presenceSensorAd (pa_lighting (bm_params u')); li_automaticAd := li_automaticAd (pa_lighting (bm_params u')); li_presenceAutoAd := li_presenceAutoAd (pa_lighting (bm_params u')); li_manualSwitchAd := li_manualSwitchAd (pa_lighting (bm_params u')); li_presenceSensorLux := li_presenceSensorLux (pa_lighting (bm_params u')); li_automaticLux := li_automaticLux (pa_lighting (bm_params u')); li_presenceAutoLux := li_presenceAutoLux (pa_lighting (bm_params u')); li_manualSwitchLux := li_manualSwitchLux (pa_lighting (bm_params u')); li_naturallyLightedArea := li_naturallyLightedArea (pa_lighting (bm_params u')) |};
    pa_building := {| bu_lightingOccupancySensor := bu_lightingOccupancySensor (pa_building (bm_params u)); bu_constantIllumination := bu_constantIllumination (pa_building (bm_params u)); bu_elecApplianceOcc := bu_elecApplianceOcc (pa_building (bm_params u)); bu_elecApplianceUnocc := bu_elecApplianceUnocc (pa_building (bm_params u)); bu_gasApplianceOcc := bu_gasApplianceOcc (pa_building (bm_params u)); bu_gasApplianceUnocc := bu_gasApplianceUnocc (pa_building (bm_params u)); bu_bem := bu_bem (pa_building (bm_params u)); bu_externalEquipment := bu_externalEquipment (pa_building (bm_params u')) |};
    pa_population := pa_population (bm_params u);
    pa_settings := pa_settings (bm_params u');
    pa_phys := pa_phys (bm_params u);
    pa_terrain := pa_terrain (bm_params u) |};
     bm_weatherFilePath := bm_weatherFilePath u' |}.

Lemma monthly_ignores (u u' : building_model T) w :
  (forall key, In key all_parameters -> ~ In key monthly_unused -> same_parameter key u u') ->
  simulateMonthly (bm_params u') w = simulateMonthly (bm_params u) w.
Proof.
  intros S0.
  assert (S : same_parameters (filter (fun key => negb (existsb (String.eqb key) monthly_unused)) all_parameters) u u').
  { intros key I. apply filter_In in I. destruct I as [I J]. apply S0; [exact I|]. intros K.
    apply negb_true_iff in J. assert (X : existsb (String.eqb key) monthly_unused = true) by (apply existsb_exists; exists key; split; [exact K|apply String.eqb_refl]).
    congruence. }
  clear S0.
  match type of S with same_parameters ?l _ _ => let v := eval vm_compute in l in change (same_parameters v u u') in S end.
  match type of S with same_parameters ?l _ _ => assert (V := rate_flag_same l u u' (key_in "vent_rate_flag" l eq_refl) S) end.
  assert (E : u' = monthly_patch u u') by (open_buildings u u'; cbn in V; identify S; subst; reflexivity).
  rewrite E. clear E S V. reflexivity.
Qed.

Lemma unchanged_same key key' (u u' : building_model T) : unchanged_except key u u' -> key' <> key -> same_parameter key' u u'.
Proof.
  intros (U1 & U2 & U3 & U4 & U5 & U6) D. repeat split.
  - intros p I. exact (U1 key' p I D).
  - intros p I. exact (U2 key' p I D).
  - intros p words I. exact (U3 key' p words I D).
  - intros p I. exact (U4 key' p I D).
  - intros p E. unfold optional_integer in E, U5. injection E as E1 E2. subst key' p. exact (U5 D).
Qed.
Lemma hourly_no_effect key (u u' : building_model T) ws r0 agg : In key hourly_unused -> unchanged_except key u u' ->
  M_Hourly.simulate (bm_params u') ws r0 agg = M_Hourly.simulate (bm_params u) ws r0 agg.
Proof.
  intros I U. apply hourly_ignores. intros key' _ N'. apply (unchanged_same key key' u u' U). intros ->. exact (N' I).
Qed.
Lemma monthly_no_effect key (u u' : building_model T) w : In key monthly_unused -> unchanged_except key u u' ->
  simulateMonthly (bm_params u') w = simulateMonthly (bm_params u) w.
Proof.
  intros I U. apply monthly_ignores. intros key' _ N'. apply (unchanged_same key key' u u' U). intros ->. exact (N' I).
Qed.
Lemma hourly_alone key k (u u' : building_model T) ws r0 agg rows r rows' r' :
  ~ In key (hourly_inputs k) -> unchanged_except key u u' ->
  M_Hourly.simulate (bm_params u) ws r0 agg = Ok (rows, r) -> M_Hourly.simulate (bm_params u') ws r0 agg = Ok (rows', r') ->
  map (fun row => nth_error row k) rows' = map (fun row => nth_error row k) rows.
Proof.
  intros I U. apply hourly_depends. intros key' I'. apply (unchanged_same key key' u u' U). intros ->. exact (I I').
Qed.
Lemma monthly_alone key k (u u' : building_model T) w rows rows' :
  ~ In key (monthly_inputs k) -> unchanged_except key u u' ->
  simulateMonthly (bm_params u) w = Ok rows -> simulateMonthly (bm_params u') w = Ok rows' ->
  map (fun row => nth_error row k) rows' = map (fun row => nth_error row k) rows.
Proof.
  intros I U. apply monthly_depends. intros key' I'. apply (unchanged_same key key' u u' U). intros ->. exact (I I').
Qed.
End Table.

(** Two buildings that differ in one parameter. *)
Section Case.
Context {T : Type} {N : Num T}.
Definition office_file : building_model T := {| bm_params := E_SmallOffice.smallOffice; bm_weatherFilePath := [] |}.
Definition warmer_people : building_model T := set_num (N_population F_po_heatGainPerPerson) (zn 200) office_file.
Lemma warmer_people_unchanged : unchanged_except "heatgainperperson" office_file warmer_people.
Proof.
  split; [|split; [|split; [|split; [|split]]]].
  - intros k p I D.
    repeat (destruct I as [I|I]; [apply pair_equal_spec in I; destruct I as [<- <-]; first [reflexivity|exfalso; apply D; reflexivity]|]). destruct I.
  - intros k p I D. repeat (destruct I as [I|I]; [apply pair_equal_spec in I; destruct I as [<- <-]; reflexivity|]). destruct I.
  - intros k p words I D. repeat (destruct I as [I|I]; [apply pair_equal_spec in I; destruct I as [I <-]; apply pair_equal_spec in I; destruct I as [<- <-]; reflexivity|]). destruct I.
  - intros k p I D. repeat (destruct I as [I|I]; [apply pair_equal_spec in I; destruct I as [<- <-]; reflexivity|]). destruct I.
  - intros _. reflexivity.
  - intros _. reflexivity.
Qed.
End Case.
