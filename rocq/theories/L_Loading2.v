(** Lemmas about loading a building: a map with acceptable parameters is loaded. *)
From Coq Require Import Ascii String.
From Verif Require Import Base Num Text M_Text M_Properties M_Params M_UserModel S_Text S_Loading L_Text L_Properties L_UserModel L_Loading.
From Verif Require Import L_HourlyShape.
Open Scope list_scope.

Section Load.
Context {T : Type} {N : Num T}.
Notation init := (@initializeParameter T).
Notation bs := (@all_bindings T N).

Definition find_row {A} (k : text) (l : list (string * A)) : option (string * A) := find (fun e => text_eqb (tx (fst e)) k) l.
Lemma find_row_in : forall A (l : list (string * A)) k e, find_row k l = Some e -> In e l.
Proof. intros A l k e H. apply find_some in H. apply H. Qed.

Definition in_table (b : binding T) : Prop :=
  match b with
  | BDouble k true f => exists s (p : building_model T -> T), k = tx s /\ In (s, p) required_numbers /\ forall u, p u = get_num f u
  | BDouble k false f => exists s (p : building_model T -> T), k = tx s /\ In (s, p) optional_numbers /\ forall u, p u = get_num f u
  | BBool k r _ => r = false
  | BInt k r _ => r = false /\ k = tx (fst (@optional_integer T))
  | BVec k _ f => exists s p, k = tx s /\ In (s, p) (@required_vectors T)
  | BText k _ set => (exists s p words, k = tx s /\ In (s, p, words) (@required_words T) /\ word_setter set p words)
                     \/ (k = tx "weatherfilepath" /\ set = set_WeatherFilePath)
  end.
Ltac row := match goal with |- In (?s, _) ?l => apply (find_row_in _ l (tx s)); vm_compute; reflexivity end.
Lemma all_in_table : Forall in_table bs.
Proof.
  unfold all_bindings, parameter_bindings, structure_bindings. cbn [app].
  repeat match goal with |- Forall _ (_ :: _) => apply Forall_cons | |- Forall _ [] => apply Forall_nil end;
  cbn [in_table];
  try reflexivity;
  try (eexists _, _; split; [reflexivity|split; [row|intros; reflexivity]]);
  try (eexists _, _; split; [reflexivity|row]);
  try (split; reflexivity);
  try (right; split; reflexivity);
  left; eexists _, _, _; (split; [reflexivity|]).
  1: split; [|exact heating_words]; cbn; tauto.
  1: split; [|exact ventilation_words]; cbn; tauto.
  1: split; [|exact dhw_words]; cbn; tauto.
  1: split; [|exact bem_words]; cbn; tauto.
Qed.

Definition field_binding (f : num_field) : option (binding T) :=
  find (fun b => match b with BDouble _ _ g => if num_eq_dec f g then true else false | _ => false end) bs.
Lemma field_binding_in : forall f b, field_binding f = Some b -> In b bs.
Proof. intros f b H. apply find_some in H. apply H. Qed.
Lemma field_bound : forall f, exists k r, In (BDouble k r f) bs.
Proof.
  intros f.
  destruct f as [f|f|f|f|f|f|f|f|f|]; try destruct f; eexists _, _;
  match goal with |- In (BDouble _ _ ?f) _ => apply (field_binding_in f); vm_compute; reflexivity end.
Qed.

(** Determinacy. *)
Lemma num_determined : forall rd get vec (u a b : building_model T), loaded rd get vec u a -> loaded rd get vec u b ->
  forall f, get_num f a = get_num f b.
Proof.
  intros rd get vec u a b (A1&A2&_) (B1&B2&_) f. destruct (field_bound f) as (k&r&I).
  pose proof (proj1 (Forall_forall _ _) all_in_table _ I) as Q. cbn [in_table] in Q. destruct r.
  - destruct Q as (s&p&->&Q&P). rewrite <- !P. destruct (A1 s p Q) as (x&X1&X2). destruct (B1 s p Q) as (y&Y1&Y2). congruence.
  - destruct Q as (s&p&->&Q&P). rewrite <- !P. pose proof (A2 s p Q) as X. pose proof (B2 s p Q) as Y.
    unfold optional_result in *. destruct (get (tx s)) as [t|]; [|congruence]. destruct (rd_stod rd t); try congruence. destruct X.
Qed.

Lemma structure_ext : forall (p q : structure_t T), (forall f, get_structure_field f p = get_structure_field f q) -> st_wallArea p = st_wallArea q -> st_windowArea p = st_windowArea q -> st_wallU p = st_wallU q -> st_windowU p = st_windowU q -> st_wallEmissivity p = st_wallEmissivity q -> st_wallAbsorption p = st_wallAbsorption q -> st_windowSDF p = st_windowSDF q -> st_windowSHGC p = st_windowSHGC q -> st_windowSCF p = st_windowSCF q -> p = q.
Proof.
  intros [] [] H. cbn. intros.
  pose proof (H F_st_buildingHeight).   pose proof (H F_st_floorArea).   pose proof (H F_st_infiltrationRate).   pose proof (H F_st_interiorHeatCapacity).   pose proof (H F_st_wallHeatCapacity).   pose proof (H F_st_R_se).   pose proof (H F_st_irradianceForMaxShadingUse).   pose proof (H F_st_shadingFactorAtMaxUse).   pose proof (H F_st_totalAreaPerFloorArea).   pose proof (H F_st_win_ff).   pose proof (H F_st_win_F_W).   pose proof (H F_st_R_sc_ext). 
  cbn in *. clear H. subst. reflexivity.
Qed.
Lemma heating_ext : forall (p q : heating_t T), (forall f, get_heating_field f p = get_heating_field f q) -> ht_energyType p = ht_energyType q -> ht_hotWaterEnergyType p = ht_hotWaterEnergyType q -> ht_forcedAir p = ht_forcedAir q -> p = q.
Proof.
  intros [] [] H. cbn. intros.
  pose proof (H F_ht_hotcoldWasteFactor).   pose proof (H F_ht_hvacLossFactor).   pose proof (H F_ht_efficiency).   pose proof (H F_ht_hotWaterDemand).   pose proof (H F_ht_hotWaterSystemEfficiency).   pose proof (H F_ht_hotWaterDistributionEfficiency).   pose proof (H F_ht_pumpControlReduction).   pose proof (H F_ht_tempOcc).   pose proof (H F_ht_tempUnocc).   pose proof (H F_ht_dT_supp).   pose proof (H F_ht_E_pumps).   pose proof (H F_ht_T_ctrl_flag).   pose proof (H F_ht_a_H0).   pose proof (H F_ht_tau_H0).   pose proof (H F_ht_DH_YesNo).   pose proof (H F_ht_eta_DH_network).   pose proof (H F_ht_eta_DH_sys).   pose proof (H F_ht_frac_DH_free).   pose proof (H F_ht_dhw_tset).   pose proof (H F_ht_dhw_tsupply). 
  cbn in *. clear H. subst. reflexivity.
Qed.
Lemma cooling_ext : forall (p q : cooling_t T), (forall f, get_cooling_field f p = get_cooling_field f q) -> cl_forcedAir p = cl_forcedAir q -> p = q.
Proof.
  intros [] [] H. cbn. intros.
  pose proof (H F_cl_hvacLossFactor).   pose proof (H F_cl_cop).   pose proof (H F_cl_partialLoadValue).   pose proof (H F_cl_pumpControlReduction).   pose proof (H F_cl_tempOcc).   pose proof (H F_cl_tempUnocc).   pose proof (H F_cl_T_ctrl_flag).   pose proof (H F_cl_dT_supp).   pose proof (H F_cl_DC_YesNo).   pose proof (H F_cl_eta_DC_network).   pose proof (H F_cl_eta_DC_COP).   pose proof (H F_cl_eta_DC_frac_abs).   pose proof (H F_cl_eta_DC_COP_abs).   pose proof (H F_cl_frac_DC_free).   pose proof (H F_cl_E_pumps). 
  cbn in *. clear H. subst. reflexivity.
Qed.
Lemma ventilation_ext : forall (p q : ventilation_t T), (forall f, get_ventilation_field f p = get_ventilation_field f q) -> ve_type p = ve_type q -> ve_vent_rate_flag p = ve_vent_rate_flag q -> p = q.
Proof.
  intros [] [] H. cbn. intros.
  pose proof (H F_ve_supplyRate).   pose proof (H F_ve_supplyDifference).   pose proof (H F_ve_heatRecoveryEfficiency).   pose proof (H F_ve_exhaustAirRecirculated).   pose proof (H F_ve_fanPower).   pose proof (H F_ve_fanControlFactor).   pose proof (H F_ve_preheat).   pose proof (H F_ve_n50).   pose proof (H F_ve_hzone).   pose proof (H F_ve_p_exp).   pose proof (H F_ve_zone_frac).   pose proof (H F_ve_stack_exp).   pose proof (H F_ve_stack_coeff).   pose proof (H F_ve_wind_exp).   pose proof (H F_ve_wind_coeff).   pose proof (H F_ve_dCp).   pose proof (H F_ve_H_ve). 
  cbn in *. clear H. subst. reflexivity.
Qed.
Lemma lighting_ext : forall (p q : lighting_t T), (forall f, get_lighting_field f p = get_lighting_field f q) -> p = q.
Proof.
  intros [] [] H. cbn. intros.
  pose proof (H F_li_densityOcc).   pose proof (H F_li_densityUnocc).   pose proof (H F_li_exteriorEnergy).   pose proof (H F_li_dimmingFraction).   pose proof (H F_li_n_day_start).   pose proof (H F_li_n_day_end).   pose proof (H F_li_n_weeks).   pose proof (H F_li_elecInternalGains).   pose proof (H F_li_permLightPowerDensity).   pose proof (H F_li_presenceSensorAd).   pose proof (H F_li_automaticAd).   pose proof (H F_li_presenceAutoAd).   pose proof (H F_li_manualSwitchAd).   pose proof (H F_li_presenceSensorLux).   pose proof (H F_li_automaticLux).   pose proof (H F_li_presenceAutoLux).   pose proof (H F_li_manualSwitchLux).   pose proof (H F_li_naturallyLightedArea). 
  cbn in *. clear H. subst. reflexivity.
Qed.
Lemma building_ext : forall (p q : building_t T), (forall f, get_building_field f p = get_building_field f q) -> bu_bem p = bu_bem q -> p = q.
Proof.
  intros [] [] H. cbn. intros.
  pose proof (H F_bu_elecApplianceOcc).   pose proof (H F_bu_elecApplianceUnocc).   pose proof (H F_bu_gasApplianceOcc).   pose proof (H F_bu_gasApplianceUnocc).   pose proof (H F_bu_lightingOccupancySensor).   pose proof (H F_bu_constantIllumination).   pose proof (H F_bu_externalEquipment). 
  cbn in *. clear H. subst. reflexivity.
Qed.
Lemma population_ext : forall (p q : population_t T), (forall f, get_population_field f p = get_population_field f q) -> p = q.
Proof.
  intros [] [] H. cbn. intros.
  pose proof (H F_po_daysStart).   pose proof (H F_po_daysEnd).   pose proof (H F_po_hoursStart).   pose proof (H F_po_hoursEnd).   pose proof (H F_po_densityOcc).   pose proof (H F_po_densityUnocc).   pose proof (H F_po_heatGainPerPerson). 
  cbn in *. clear H. subst. reflexivity.
Qed.
Lemma settings_ext : forall (p q : settings_t T), (forall f, get_settings_field f p = get_settings_field f q) -> p = q.
Proof.
  intros [] [] H. cbn. intros.
  pose proof (H F_ss_phiIntFraction).   pose proof (H F_ss_phiSolFraction).   pose proof (H F_ss_hci).   pose proof (H F_ss_hri). 
  cbn in *. clear H. subst. reflexivity.
Qed.
Lemma phys_ext : forall (p q : phys_t T), (forall f, get_phys_field f p = get_phys_field f q) -> p = q.
Proof.
  intros [] [] H. cbn. intros.
  pose proof (H F_ph_rhoCpAir).   pose proof (H F_ph_rhoCpWater). 
  cbn in *. clear H. subst. reflexivity.
Qed.

Lemma same_word_codes : forall s w w', same_word s (tx w) -> same_word s (tx w') -> lower (tx w) = lower (tx w').
Proof. intros s w w' A B. apply same_word_lower in A, B. congruence. Qed.

Lemma words_determined : forall rd get vec (u a b : building_model T), loaded rd get vec u a -> loaded rd get vec u b ->
  forall k p words, In (k, p, words) required_words -> p a = p b.
Proof.
  intros rd get vec u a b (_&_&_&_&A&_) (_&_&_&_&B&_) k p words H.
  destruct (A k p words H) as (s&w&c&S1&W1&X1&P1). destruct (B k p words H) as (s'&w'&c'&S2&W2&X2&P2).
  assert (s' = s) as -> by congruence. rewrite P1, P2.
  pose proof (same_word_codes s w w' X1 X2) as L.
  destruct H as [H|[H|[H|[H|[]]]]]; apply pair_equal_spec in H; destruct H as [_ <-];
  repeat (destruct W1 as [W1|W1]; [apply pair_equal_spec in W1; destruct W1 as [<- <-]|]); try (destruct W1; fail);
  repeat (destruct W2 as [W2|W2]; [apply pair_equal_spec in W2; destruct W2 as [<- <-]|]); try (destruct W2; fail);
  first [reflexivity|discriminate L].
Qed.

Lemma flags_determined : forall rd get vec (u a b : building_model T), loaded rd get vec u a -> loaded rd get vec u b ->
  forall k p, In (k, p) optional_flags -> p a = p b.
Proof.
  intros rd get vec u a b (_&_&A&_) (_&_&B&_) k p H.
  destruct (A k p H) as [(A1&A2)|[(A1&A2)|(A1&A2&A3)]]; destruct (B k p H) as [(B1&B2)|[(B1&B2)|(B1&B2&B3)]]; try congruence;
  rewrite A1 in B1; discriminate B1.
Qed.

Lemma vectors_determined : forall rd get vec (u a b : building_model T), loaded rd get vec u a -> loaded rd get vec u b ->
  forall k (p : building_model T -> list T), In (k, p) required_vectors -> p a = p b.
Proof.
  intros rd get vec u a b (_&_&_&_&_&A&_) (_&_&_&_&_&B&_) k p H.
  destruct (A k p H) as (xs&X1&X2). destruct (B k p H) as (ys&Y1&Y2). assert (ys = xs) as -> by congruence.
  exact (directions_unique _ xs _ _ X2 Y2).
Qed.

Lemma loaded_unique : forall rd get vec (u a b : building_model T), loaded rd get vec u a -> loaded rd get vec u b -> a = b.
Proof.
  intros rd get vec u a b A B.
  pose proof (num_determined rd get vec u a b A B) as NU.
  pose proof (words_determined rd get vec u a b A B) as WO.
  pose proof (flags_determined rd get vec u a b A B) as FL.
  pose proof (vectors_determined rd get vec u a b A B) as VE.
  assert (PA : bm_weatherFilePath a = bm_weatherFilePath b).
  { destruct A as (_&_&_&_&_&_&A). destruct B as (_&_&_&_&_&_&B). congruence. }
  assert (IN : ve_vent_rate_flag (pa_ventilation (bm_params a)) = ve_vent_rate_flag (pa_ventilation (bm_params b))).
  { destruct A as (_&_&_&A&_). destruct B as (_&_&_&B&_). unfold optional_integer, optional_result in *.
    destruct (get (tx "vent_rate_flag")) as [t|]; [|congruence]. destruct (rd_stoi rd t); try congruence. destruct A. }
  destruct a as [[a1 a2 a3 a4 a5 a6 a7 a8 a9 a10] aw]. destruct b as [[b1 b2 b3 b4 b5 b6 b7 b8 b9 b10] bw].
  cbn in PA, IN. subst bw.
  assert (b1 = a1) as ->.
  { symmetry. apply structure_ext; [intros f; exact (NU (N_structure f))|..].
    - eapply (VE "wallArea"%string (fun u => st_wallArea (pa_structure (bm_params u)))). row.
    - eapply (VE "windowArea"%string (fun u => st_windowArea (pa_structure (bm_params u)))). row.
    - eapply (VE "wallU"%string (fun u => st_wallU (pa_structure (bm_params u)))). row.
    - eapply (VE "windowU"%string (fun u => st_windowU (pa_structure (bm_params u)))). row.
    - eapply (VE "wallEmissivity"%string (fun u => st_wallEmissivity (pa_structure (bm_params u)))). row.
    - eapply (VE "wallAbsorption"%string (fun u => st_wallAbsorption (pa_structure (bm_params u)))). row.
    - eapply (VE "windowSDF"%string (fun u => st_windowSDF (pa_structure (bm_params u)))). row.
    - eapply (VE "windowSHGC"%string (fun u => st_windowSHGC (pa_structure (bm_params u)))). row.
    - eapply (VE "windowSCF"%string (fun u => st_windowSCF (pa_structure (bm_params u)))). row. }
  assert (b2 = a2) as ->.
  { symmetry. apply heating_ext; [intros f; exact (NU (N_heating f))|..].
    - eapply (WO "heatingfueltype"%string (fun u => ht_energyType (pa_heating (bm_params u)))). cbn; tauto.
    - eapply (WO "dhwfueltype"%string (fun u => ht_hotWaterEnergyType (pa_heating (bm_params u)))). cbn; tauto.
    - eapply (FL "forcedairheating"%string (fun u => ht_forcedAir (pa_heating (bm_params u)))). cbn; tauto. }
  assert (b3 = a3) as ->.
  { symmetry. apply cooling_ext; [intros f; exact (NU (N_cooling f))|].
    eapply (FL "forcedaircooling"%string (fun u => cl_forcedAir (pa_cooling (bm_params u)))). cbn; tauto. }
  assert (b4 = a4) as ->.
  { symmetry. apply ventilation_ext; [intros f; exact (NU (N_ventilation f))| |exact IN].
    eapply (WO "ventilationtype"%string (fun u => ve_type (pa_ventilation (bm_params u)))). cbn; tauto. }
  assert (b5 = a5) as -> by (symmetry; apply lighting_ext; intros f; exact (NU (N_lighting f))).
  assert (b6 = a6) as ->.
  { symmetry. apply building_ext; [intros f; exact (NU (N_building f))|].
    eapply (WO "bemtype"%string (fun u => bu_bem (pa_building (bm_params u)))). cbn; tauto. }
  assert (b7 = a7) as -> by (symmetry; apply population_ext; intros f; exact (NU (N_population f))).
  assert (b8 = a8) as -> by (symmetry; apply settings_ext; intros f; exact (NU (N_settings f))).
  assert (b9 = a9) as -> by (symmetry; apply phys_ext; intros f; exact (NU (N_phys f))).
  pose proof (NU N_terrain) as Z. cbn in Z. subst. reflexivity.
Qed.

(** Success. *)
Lemma binding_succeeds : forall rd m (u a : building_model T), loaded rd (getProperty m) (getPropertyAsDoubleVector rd m) u a ->
  forall b, In b bs -> forall v, exists v', init rd m v b = Ok v'.
Proof.
  intros rd m u a (A1&A2&A3&A4&A5&A6&A7) b I v.
  pose proof (proj1 (Forall_forall _ _) all_in_table _ I) as Q.
  destruct b as [k r f|k r s|k r s|k r f|k r set]; cbn [in_table] in Q; unfold initializeParameter.
  - unfold getPropertyAsDouble. destruct r.
    + destruct Q as (s&p&->&Q&_). destruct (A1 s p Q) as (t&->&E). rewrite E. cbn. eauto.
    + destruct Q as (s&p&->&Q&_). specialize (A2 s p Q). unfold optional_result in A2.
      destruct (getProperty m (tx s)) as [t|]; [|cbn; eauto]. destruct (rd_stod rd t); cbn; eauto. destruct A2.
  - destruct Q as [-> ->]. unfold getPropertyAsInt. unfold optional_integer, optional_result in *. cbn [fst].
    destruct (getProperty m (tx "vent_rate_flag")) as [t|]; [|cbn; eauto]. destruct (rd_stoi rd t); cbn; eauto. destruct A4.
  - subst r. destruct (getPropertyAsBool m k); eauto.
  - destruct Q as (s&p&->&Q). destruct (A6 s p Q) as (xs&->&L&_&_). cbn.
    destruct (directions_nine _ xs L) as (ys&->&LY). cbn. unfold set_vec. rewrite LY. cbn. eauto.
  - destruct Q as [(s&p&words&->&Q&(_&W&_))|[-> ->]].
    + destruct (A5 s p words Q) as (t&w&c&->&W1&W2&_). destruct (W t v w c W1 W2) as (v'&->&_). eauto.
    + rewrite A7. unfold set_WeatherFilePath. eauto.
Qed.

Lemma ofold_succeeds : forall rd m l, (forall b, In b l -> forall v, exists v', init rd m v b = Ok v') ->
  forall u, exists u', ofold (init rd m) l u = Ok u'.
Proof.
  intros rd m. induction l as [|b l IH]; intros H u; cbn [ofold]; [eauto|].
  destruct (H b (or_introl eq_refl) u) as (u1&->). cbn. apply IH. intros b' I. apply H. right. exact I.
Qed.

Lemma load_iff_bindings : forall rd m (u u' : building_model T),
  ofold (init rd m) bs u = Ok u' <-> loaded rd (getProperty m) (getPropertyAsDoubleVector rd m) u u'.
Proof.
  intros rd m u u'. split; [apply load_loaded|]. intros L.
  destruct (ofold_succeeds rd m bs (binding_succeeds rd m u u' L) u) as (v&E). rewrite E. f_equal.
  eapply loaded_unique; [|exact L]. apply load_loaded. exact E.
Qed.

Lemma C48_one_file_l : forall rd file (u u' : building_model T),
  loadBuilding rd file u = Ok u' <->
  exists m, propertiesOf file = Ok m /\ loaded rd (getProperty m) (getPropertyAsDoubleVector rd m) u u'.
Proof.
  intros rd file u u'. unfold loadBuilding. destruct (propertiesOf file) as [m|e|].
  - unfold obind at 1. rewrite fold_bindings, load_iff_bindings. split; [eauto|]. intros (m'&E&L). injection E as <-. exact L.
  - split; [discriminate|]. intros (m'&E&_). discriminate.
  - split; [discriminate|]. intros (m'&E&_). discriminate.
Qed.
Lemma C48_two_files_l : forall rd file defaults (u u' : building_model T),
  loadBuilding2 rd file defaults u = Ok u' <->
  exists m, propertiesOf2 file defaults = Ok m /\ loaded rd (getProperty m) (getPropertyAsDoubleVector rd m) u u'.
Proof.
  intros rd file defaults u u'. unfold loadBuilding2. destruct (propertiesOf2 file defaults) as [m|e|].
  - unfold obind at 1. rewrite fold_bindings, load_iff_bindings. split; [eauto|]. intros (m'&E&L). injection E as <-. exact L.
  - split; [discriminate|]. intros (m'&E&_). discriminate.
  - split; [discriminate|]. intros (m'&E&_). discriminate.
Qed.
End Load.
