(** Lemmas about loading a building. *)
From Coq Require Import Ascii String.
From Verif Require Import Base Num Text M_Text M_Properties M_Params M_UserModel S_Text S_Loading L_Text L_Properties.
Open Scope list_scope.

Definition get_structure_field {T} (f : structure_field) (p : structure_t T) : T :=
  match f with F_st_buildingHeight => st_buildingHeight p | F_st_floorArea => st_floorArea p | F_st_infiltrationRate => st_infiltrationRate p | F_st_interiorHeatCapacity => st_interiorHeatCapacity p | F_st_wallHeatCapacity => st_wallHeatCapacity p | F_st_R_se => st_R_se p | F_st_irradianceForMaxShadingUse => st_irradianceForMaxShadingUse p | F_st_shadingFactorAtMaxUse => st_shadingFactorAtMaxUse p | F_st_totalAreaPerFloorArea => st_totalAreaPerFloorArea p | F_st_win_ff => st_win_ff p | F_st_win_F_W => st_win_F_W p | F_st_R_sc_ext => st_R_sc_ext p end.
Lemma structure_eq_dec : forall f g : structure_field, {f = g} + {f <> g}.
Proof. decide equality. Defined.
Lemma structure_lens : forall T f g (x : T) p, get_structure_field f (set_structure_field g x p) = if structure_eq_dec f g then x else get_structure_field f p.
Proof. intros T f g x p. destruct f, g; reflexivity. Qed.
Definition get_heating_field {T} (f : heating_field) (p : heating_t T) : T :=
  match f with F_ht_hotcoldWasteFactor => ht_hotcoldWasteFactor p | F_ht_hvacLossFactor => ht_hvacLossFactor p | F_ht_efficiency => ht_efficiency p | F_ht_hotWaterDemand => ht_hotWaterDemand p | F_ht_hotWaterSystemEfficiency => ht_hotWaterSystemEfficiency p | F_ht_hotWaterDistributionEfficiency => ht_hotWaterDistributionEfficiency p | F_ht_pumpControlReduction => ht_pumpControlReduction p | F_ht_tempOcc => ht_tempOcc p | F_ht_tempUnocc => ht_tempUnocc p | F_ht_dT_supp => ht_dT_supp p | F_ht_E_pumps => ht_E_pumps p | F_ht_T_ctrl_flag => ht_T_ctrl_flag p | F_ht_a_H0 => ht_a_H0 p | F_ht_tau_H0 => ht_tau_H0 p | F_ht_DH_YesNo => ht_DH_YesNo p | F_ht_eta_DH_network => ht_eta_DH_network p | F_ht_eta_DH_sys => ht_eta_DH_sys p | F_ht_frac_DH_free => ht_frac_DH_free p | F_ht_dhw_tset => ht_dhw_tset p | F_ht_dhw_tsupply => ht_dhw_tsupply p end.
Lemma heating_eq_dec : forall f g : heating_field, {f = g} + {f <> g}.
Proof. decide equality. Defined.
Lemma heating_lens : forall T f g (x : T) p, get_heating_field f (set_heating_field g x p) = if heating_eq_dec f g then x else get_heating_field f p.
Proof. intros T f g x p. destruct f, g; reflexivity. Qed.
Definition get_cooling_field {T} (f : cooling_field) (p : cooling_t T) : T :=
  match f with F_cl_hvacLossFactor => cl_hvacLossFactor p | F_cl_cop => cl_cop p | F_cl_partialLoadValue => cl_partialLoadValue p | F_cl_pumpControlReduction => cl_pumpControlReduction p | F_cl_tempOcc => cl_tempOcc p | F_cl_tempUnocc => cl_tempUnocc p | F_cl_T_ctrl_flag => cl_T_ctrl_flag p | F_cl_dT_supp => cl_dT_supp p | F_cl_DC_YesNo => cl_DC_YesNo p | F_cl_eta_DC_network => cl_eta_DC_network p | F_cl_eta_DC_COP => cl_eta_DC_COP p | F_cl_eta_DC_frac_abs => cl_eta_DC_frac_abs p | F_cl_eta_DC_COP_abs => cl_eta_DC_COP_abs p | F_cl_frac_DC_free => cl_frac_DC_free p | F_cl_E_pumps => cl_E_pumps p end.
Lemma cooling_eq_dec : forall f g : cooling_field, {f = g} + {f <> g}.
Proof. decide equality. Defined.
Lemma cooling_lens : forall T f g (x : T) p, get_cooling_field f (set_cooling_field g x p) = if cooling_eq_dec f g then x else get_cooling_field f p.
Proof. intros T f g x p. destruct f, g; reflexivity. Qed.
Definition get_ventilation_field {T} (f : ventilation_field) (p : ventilation_t T) : T :=
  match f with F_ve_supplyRate => ve_supplyRate p | F_ve_supplyDifference => ve_supplyDifference p | F_ve_heatRecoveryEfficiency => ve_heatRecoveryEfficiency p | F_ve_exhaustAirRecirculated => ve_exhaustAirRecirculated p | F_ve_fanPower => ve_fanPower p | F_ve_fanControlFactor => ve_fanControlFactor p | F_ve_preheat => ve_preheat p | F_ve_n50 => ve_n50 p | F_ve_hzone => ve_hzone p | F_ve_p_exp => ve_p_exp p | F_ve_zone_frac => ve_zone_frac p | F_ve_stack_exp => ve_stack_exp p | F_ve_stack_coeff => ve_stack_coeff p | F_ve_wind_exp => ve_wind_exp p | F_ve_wind_coeff => ve_wind_coeff p | F_ve_dCp => ve_dCp p | F_ve_H_ve => ve_H_ve p end.
Lemma ventilation_eq_dec : forall f g : ventilation_field, {f = g} + {f <> g}.
Proof. decide equality. Defined.
Lemma ventilation_lens : forall T f g (x : T) p, get_ventilation_field f (set_ventilation_field g x p) = if ventilation_eq_dec f g then x else get_ventilation_field f p.
Proof. intros T f g x p. destruct f, g; reflexivity. Qed.
Definition get_lighting_field {T} (f : lighting_field) (p : lighting_t T) : T :=
  match f with F_li_densityOcc => li_densityOcc p | F_li_densityUnocc => li_densityUnocc p | F_li_exteriorEnergy => li_exteriorEnergy p | F_li_dimmingFraction => li_dimmingFraction p | F_li_n_day_start => li_n_day_start p | F_li_n_day_end => li_n_day_end p | F_li_n_weeks => li_n_weeks p | F_li_elecInternalGains => li_elecInternalGains p | F_li_permLightPowerDensity => li_permLightPowerDensity p | F_li_presenceSensorAd => li_presenceSensorAd p | F_li_automaticAd => li_automaticAd p | F_li_presenceAutoAd => li_presenceAutoAd p | F_li_manualSwitchAd => li_manualSwitchAd p | F_li_presenceSensorLux => li_presenceSensorLux p | F_li_automaticLux => li_automaticLux p | F_li_presenceAutoLux => li_presenceAutoLux p | F_li_manualSwitchLux => li_manualSwitchLux p | F_li_naturallyLightedArea => li_naturallyLightedArea p end.
Lemma lighting_eq_dec : forall f g : lighting_field, {f = g} + {f <> g}.
Proof. decide equality. Defined.
Lemma lighting_lens : forall T f g (x : T) p, get_lighting_field f (set_lighting_field g x p) = if lighting_eq_dec f g then x else get_lighting_field f p.
Proof. intros T f g x p. destruct f, g; reflexivity. Qed.
Definition get_building_field {T} (f : building_field) (p : building_t T) : T :=
  match f with F_bu_elecApplianceOcc => bu_elecApplianceOcc p | F_bu_elecApplianceUnocc => bu_elecApplianceUnocc p | F_bu_gasApplianceOcc => bu_gasApplianceOcc p | F_bu_gasApplianceUnocc => bu_gasApplianceUnocc p | F_bu_lightingOccupancySensor => bu_lightingOccupancySensor p | F_bu_constantIllumination => bu_constantIllumination p | F_bu_externalEquipment => bu_externalEquipment p end.
Lemma building_eq_dec : forall f g : building_field, {f = g} + {f <> g}.
Proof. decide equality. Defined.
Lemma building_lens : forall T f g (x : T) p, get_building_field f (set_building_field g x p) = if building_eq_dec f g then x else get_building_field f p.
Proof. intros T f g x p. destruct f, g; reflexivity. Qed.
Definition get_population_field {T} (f : population_field) (p : population_t T) : T :=
  match f with F_po_daysStart => po_daysStart p | F_po_daysEnd => po_daysEnd p | F_po_hoursStart => po_hoursStart p | F_po_hoursEnd => po_hoursEnd p | F_po_densityOcc => po_densityOcc p | F_po_densityUnocc => po_densityUnocc p | F_po_heatGainPerPerson => po_heatGainPerPerson p end.
Lemma population_eq_dec : forall f g : population_field, {f = g} + {f <> g}.
Proof. decide equality. Defined.
Lemma population_lens : forall T f g (x : T) p, get_population_field f (set_population_field g x p) = if population_eq_dec f g then x else get_population_field f p.
Proof. intros T f g x p. destruct f, g; reflexivity. Qed.
Definition get_settings_field {T} (f : settings_field) (p : settings_t T) : T :=
  match f with F_ss_phiIntFraction => ss_phiIntFraction p | F_ss_phiSolFraction => ss_phiSolFraction p | F_ss_hci => ss_hci p | F_ss_hri => ss_hri p end.
Lemma settings_eq_dec : forall f g : settings_field, {f = g} + {f <> g}.
Proof. decide equality. Defined.
Lemma settings_lens : forall T f g (x : T) p, get_settings_field f (set_settings_field g x p) = if settings_eq_dec f g then x else get_settings_field f p.
Proof. intros T f g x p. destruct f, g; reflexivity. Qed.
Definition get_phys_field {T} (f : phys_field) (p : phys_t T) : T :=
  match f with F_ph_rhoCpAir => ph_rhoCpAir p | F_ph_rhoCpWater => ph_rhoCpWater p end.
Lemma phys_eq_dec : forall f g : phys_field, {f = g} + {f <> g}.
Proof. decide equality. Defined.
Lemma phys_lens : forall T f g (x : T) p, get_phys_field f (set_phys_field g x p) = if phys_eq_dec f g then x else get_phys_field f p.
Proof. intros T f g x p. destruct f, g; reflexivity. Qed.
Definition get_num {T} (f : num_field) (u : building_model T) : T :=
  match f with
  | N_structure f => get_structure_field f (pa_structure (bm_params u))
  | N_heating f => get_heating_field f (pa_heating (bm_params u))
  | N_cooling f => get_cooling_field f (pa_cooling (bm_params u))
  | N_ventilation f => get_ventilation_field f (pa_ventilation (bm_params u))
  | N_lighting f => get_lighting_field f (pa_lighting (bm_params u))
  | N_building f => get_building_field f (pa_building (bm_params u))
  | N_population f => get_population_field f (pa_population (bm_params u))
  | N_settings f => get_settings_field f (pa_settings (bm_params u))
  | N_phys f => get_phys_field f (pa_phys (bm_params u))
  | N_terrain => pa_terrain (bm_params u)
  end.
Lemma num_eq_dec : forall f g : num_field, {f = g} + {f <> g}.
Proof. decide equality; [apply structure_eq_dec | apply heating_eq_dec | apply cooling_eq_dec | apply ventilation_eq_dec | apply lighting_eq_dec | apply building_eq_dec | apply population_eq_dec | apply settings_eq_dec | apply phys_eq_dec]. Defined.
Lemma num_lens : forall T f g (x : T) u, get_num f (set_num g x u) = if num_eq_dec f g then x else get_num f u.
Proof.
  intros T f g x u. destruct (num_eq_dec f g) as [<-|N].
  - destruct f; cbn; try reflexivity;
    [rewrite structure_lens; destruct (structure_eq_dec f f); congruence | rewrite heating_lens; destruct (heating_eq_dec f f); congruence | rewrite cooling_lens; destruct (cooling_eq_dec f f); congruence | rewrite ventilation_lens; destruct (ventilation_eq_dec f f); congruence | rewrite lighting_lens; destruct (lighting_eq_dec f f); congruence | rewrite building_lens; destruct (building_eq_dec f f); congruence | rewrite population_lens; destruct (population_eq_dec f f); congruence | rewrite settings_lens; destruct (settings_eq_dec f f); congruence | rewrite phys_lens; destruct (phys_eq_dec f f); congruence].
  - destruct f, g; cbn; try reflexivity; try congruence;
    [rewrite structure_lens; destruct (structure_eq_dec f f0); congruence | rewrite heating_lens; destruct (heating_eq_dec f f0); congruence | rewrite cooling_lens; destruct (cooling_eq_dec f f0); congruence | rewrite ventilation_lens; destruct (ventilation_eq_dec f f0); congruence | rewrite lighting_lens; destruct (lighting_eq_dec f f0); congruence | rewrite building_lens; destruct (building_eq_dec f f0); congruence | rewrite population_lens; destruct (population_eq_dec f f0); congruence | rewrite settings_lens; destruct (settings_eq_dec f f0); congruence | rewrite phys_lens; destruct (phys_eq_dec f f0); congruence].
Qed.

Section Load.
Context {T : Type} {N : Num T}.

Definition all_bindings : list (binding T) := parameter_bindings ++ structure_bindings.
Definition bkey (b : binding T) : text :=
  match b with BDouble k _ _ | BInt k _ _ | BBool k _ _ | BVec k _ _ | BText k _ _ => k end.
Definition is_double (b : binding T) : bool := match b with BDouble _ _ _ => true | _ => false end.
Definition others : list (binding T) := filter (fun b => negb (is_double b)) all_bindings.

Definition keeps {A} (proj : building_model T -> A) (b : binding T) : Prop :=
  forall rd m u u', initializeParameter rd m u b = Ok u' -> proj u' = proj u.

(** What a binding does when it succeeds: nothing, or its setter. *)
Lemma keeps_intro : forall A (proj : building_model T -> A) b,
  match b with
  | BDouble _ _ f => forall x u, proj (set_num f x u) = proj u
  | BInt _ _ s => forall x u, proj (s x u) = proj u
  | BBool _ _ s => forall x u, proj (s x u) = proj u
  | BVec _ _ f => forall x u, proj (put_structure u (put_vec f x (pa_structure (bm_params u)))) = proj u
  | BText _ _ s => forall x u u', s x u = Ok u' -> proj u' = proj u
  end -> keeps proj b.
Proof.
  intros A proj b H rd m u u' E. destruct b as [k r f|k r s|k r s|k r f|k r s]; cbn in E.
  - destruct (getPropertyAsDouble rd m k) as [[x|]| |]; try discriminate; cbn in E.
    + injection E as <-. apply H.
    + destruct r; [discriminate|]. injection E as <-. reflexivity.
  - destruct (getPropertyAsInt rd m k) as [[x|]| |]; try discriminate; cbn in E.
    + injection E as <-. apply H.
    + destruct r; [discriminate|]. injection E as <-. reflexivity.
  - destruct (getPropertyAsBool m k) as [x|].
    + injection E as <-. apply H.
    + destruct r; [discriminate|]. injection E as <-. reflexivity.
  - destruct (getPropertyAsDoubleVector rd m k) as [[x|]| |]; try discriminate; cbn in E.
    + destruct (northToSouth x) as [y| |]; try discriminate. cbn in E. unfold set_vec in E.
      destruct (Nat.eqb (List.length y) 9); [|discriminate]. injection E as <-. apply H.
    + destruct r; [discriminate|]. injection E as <-. reflexivity.
  - destruct (getProperty m k) as [x|].
    + eapply H. exact E.
    + destruct r; [discriminate|]. injection E as <-. reflexivity.
Qed.

Ltac text_setter E :=
  unfold set_BemType, set_HeatingEnergyCarrier, set_DhwEnergyCarrier, set_VentilationType, set_WeatherFilePath in E;
  repeat match type of E with (if ?c then _ else _) = _ => destruct c end; try discriminate;
  injection E as <-.

Lemma others_keep_num : forall f b, In b others -> keeps (get_num f) b.
Proof.
  intros f b H. unfold others in H. cbn in H.
  repeat (destruct H as [<-|H]; [apply keeps_intro|]); [..|destruct H].
  all: try (intros x u u' E; text_setter E; destruct f; try reflexivity; destruct f; reflexivity).
  all: intros x u; destruct f; try reflexivity; destruct f; reflexivity.
Qed.

Lemma double_keeps_num : forall f k r g, f <> g -> keeps (get_num f) (BDouble k r g).
Proof.
  intros f k r g H. apply keeps_intro. intros x u. rewrite num_lens. destruct (num_eq_dec f g); [contradiction|reflexivity].
Qed.

Lemma in_all : forall b, In b all_bindings -> (exists k r f, b = BDouble k r f) \/ In b others.
Proof.
  intros b H. destruct (is_double b) eqn:E.
  - left. destruct b; try discriminate. eauto.
  - right. apply filter_In. split; [exact H|]. rewrite E. reflexivity.
Qed.

End Load.
