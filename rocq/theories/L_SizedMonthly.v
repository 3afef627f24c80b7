(** A building [c] times as large in the monthly engine: lights, equipment and hot water. *)
From Coq Require Import List ZArith Lia Reals Lra Bool.
From Verif Require Import Base Num Xr M_Params M_Hourly M_Monthly M_Map S_Results S_Monthly S_Symmetry L_Xr L_HourlyShape L_HourlyOut L_Monthly L_Monthly3 L_Monthly4 L_Monthly5 L_Inputs L_Inputs2 L_Sized.
Import ListNotations.
Open Scope R_scope.

Section Sized.
Variables (c : R) (p : params_t R) (w : mweather xr).
Let A := st_floorArea (pa_structure p).
Let P := map_params Fin p.
Let Q := map_params Fin (sized c p).
Hypothesis pos : 0 < c.
Hypothesis floor : 0 < A.
Hypothesis eff1 : 0 < ht_hotWaterDistributionEfficiency (pa_heating p).
Hypothesis eff2 : 0 < ht_hotWaterSystemEfficiency (pa_heating p).

Lemma cApos : 0 < c * A.
Proof. apply Rmult_lt_0_compat; assumption. Qed.
Lemma per_area x e : sdiv (nmul x (Fin (c * e))) (Fin (c * A)) = sdiv (nmul x (Fin e)) (Fin A).
Proof.
  pose proof cApos as C. unfold sdiv. cbn [neqb xr_num]. rewrite zn_fin. cbn [xeqb]. rewrite zn_R.
  rewrite !Reqb_false by lra. destruct x as [x| | |]; cbn [nmul ndiv xr_num xmul xdiv]; [| | |reflexivity].
  - destruct (Req_EM_T (c * A) 0); [lra|]. destruct (Req_EM_T A 0); [lra|]. f_equal. field. lra.
  - unfold xscale. destruct (Rlt_dec 0 (c * e)) as [a|a], (Rlt_dec 0 e) as [b|b]; try (exfalso; nra).
    + cbn. destruct (Rlt_dec (c * A) 0); [lra|]. destruct (Rlt_dec A 0); [lra|]. reflexivity.
    + destruct (Rlt_dec (c * e) 0), (Rlt_dec e 0); try (exfalso; nra); [|reflexivity]. cbn. destruct (Rlt_dec (c * A) 0); [lra|]. destruct (Rlt_dec A 0); [lra|]. reflexivity.
  - unfold xscale. destruct (Rlt_dec 0 (c * e)) as [a|a], (Rlt_dec 0 e) as [b|b]; try (exfalso; nra).
    + cbn. destruct (Rlt_dec (c * A) 0); [lra|]. destruct (Rlt_dec A 0); [lra|]. reflexivity.
    + destruct (Rlt_dec (c * e) 0), (Rlt_dec e 0); try (exfalso; nra); [|reflexivity]. cbn. destruct (Rlt_dec (c * A) 0); [lra|]. destruct (Rlt_dec A 0); [lra|]. reflexivity.
Qed.
Lemma sized_ext hrs : divs (lu_ext (lightingEnergyUse Q hrs)) (Fin (c * A)) = divs (lu_ext (lightingEnergyUse P hrs)) (Fin A).
Proof.
  unfold lightingEnergyUse. cbn [lu_ext]. unfold divs, scale. rewrite !map_map. apply map_ext. intros x.
  change (li_exteriorEnergy (pa_lighting Q)) with (Fin (c * li_exteriorEnergy (pa_lighting p))). change (li_exteriorEnergy (pa_lighting P)) with (Fin (li_exteriorEnergy (pa_lighting p))).
  rewrite zn_fin, zn_R, !div_fin by lra. rewrite <- per_area. do 2 f_equal. f_equal. cbn [ndiv R_num]. field.
Qed.
Lemma sized_light hrs : divs (lu_month (lightingEnergyUse Q hrs)) (Fin (c * A)) = divs (lu_month (lightingEnergyUse P hrs)) (Fin A).
Proof.
  unfold Q, P. rewrite !light_month_fin, !divs_fin, !divs_R, !scale_R, !map_map by (pose proof cApos; lra). apply map_ext. intros x. f_equal.
  assert (E : lightTotal (sized c p) = c * lightTotal p).
  { unfold lightTotal. change (st_floorArea (pa_structure (sized c p))) with (c * A). fold A.
    change (lightHoursD (sized c p)) with (lightHoursD p). change (lightHoursN (sized c p)) with (lightHoursN p). ops.
    cbn [sized pa_lighting pa_building li_densityOcc li_densityUnocc bu_constantIllumination bu_lightingOccupancySensor li_dimmingFraction]. field. }
  rewrite E. field. lra.
Qed.
Lemma sized_water : divs (hotWaterNeed Q) (Fin (c * A)) = divs (hotWaterNeed P) (Fin A).
Proof.
  pose proof cApos as C. unfold P, A at 2. rewrite water_need by assumption. unfold Q. change (c * A) with (st_floorArea (pa_structure (sized c p))).
  rewrite water_need by assumption. f_equal. unfold waterMonth. apply map_ext. intros d. f_equal. f_equal. unfold water_year. fold A.
  cbn [sized pa_heating pa_structure pa_phys ht_hotWaterDemand ht_dhw_tset ht_dhw_tsupply ht_hotWaterDistributionEfficiency ht_hotWaterSystemEfficiency st_floorArea]. fold A.
  pose proof kWh_pos. field. repeat split; lra.
Qed.
Lemma sized_zero : divs (all12 (zn 0)) (Fin (c * A)) = divs (all12 (zn 0)) (Fin A).
Proof.
  pose proof cApos. rewrite zn_fin, all12_fin, !divs_fin, !divs_R by lra. f_equal. unfold all12. rewrite zn_R. cbn [repeat map].
  replace (0 / (c * A)) with 0 by (field; lra). replace (0 / A) with 0 by (field; lra). reflexivity.
Qed.
Lemma sized_columns m m' k : run P w m -> run Q w m' ->
  In k [elec_int_lights; elec_ext_lights; elec_int_equip; elec_ext_equip; elec_dhw; gas_equip; gas_dhw] ->
  nth_error (columns Q m') k = nth_error (columns P m) k.
Proof.
  intros M M' I.
  assert (B : mr_bd m' = mr_bd m).
  { pose proof (rn_bd _ _ _ M) as X. pose proof (rn_bd _ _ _ M') as X'. rewrite (rn_oc _ _ _ M) in X. rewrite (rn_oc _ _ _ M') in X'.
    change (pa_population Q) with (pa_population P) in X'. rewrite X in X'. now apply Ok_inj in X'. }
  assert (L : mr_lu m' = lightingEnergyUse Q (bd_hrsSunDown (mr_bd m))) by (rewrite <- B; exact (rn_lu _ _ _ M')).
  pose proof (rn_lu _ _ _ M) as L0.
  assert (D : divs (fst (mr_dhw m')) (Fin (c * A)) = divs (fst (mr_dhw m)) (Fin A) /\ divs (snd (mr_dhw m')) (Fin (c * A)) = divs (snd (mr_dhw m)) (Fin A)).
  { rewrite (rn_dhw _ _ _ M), (rn_dhw _ _ _ M'). unfold heatedWater. change (ht_hotWaterEnergyType (pa_heating Q)) with (ht_hotWaterEnergyType (pa_heating P)).
    destruct (_ =? _)%num; cbn [fst snd]; rewrite ?sized_water, ?sized_zero; split; reflexivity. }
  assert (O : oc_wk_day (mr_occ m') = oc_wk_day (mr_occ m)) by (rewrite (rn_oc _ _ _ M), (rn_oc _ _ _ M'); reflexivity).
  destruct D as [D1 D2].
  cbn [In] in I. decompose [or] I; clear I; try contradiction; subst k; unfold columns, outputColumns;
    unfold elec_int_lights, elec_ext_lights, elec_int_equip, elec_ext_equip, elec_dhw, gas_equip, gas_dhw; cbn [nth_error]; unfold perArea;
    change (st_floorArea (pa_structure Q)) with (Fin (c * A)); change (st_floorArea (pa_structure P)) with (Fin A); f_equal.
  - rewrite L, L0. apply sized_light.
  - rewrite L, L0. apply sized_ext.
  - rewrite O. reflexivity.
  - exact D1.
  - rewrite O. reflexivity.
  - exact D2.
Qed.
End Sized.

Lemma C83_monthly_l (c : R) (p : params_t R) w rows rows' k : 0 < c -> 0 < st_floorArea (pa_structure p) ->
  0 < ht_hotWaterDistributionEfficiency (pa_heating p) -> 0 < ht_hotWaterSystemEfficiency (pa_heating p) ->
  simulateMonthly (map_params Fin p) w = Ok rows -> simulateMonthly (map_params Fin (sized c p)) w = Ok rows' ->
  In k [elec_int_lights; elec_ext_lights; elec_int_equip; elec_ext_equip; elec_dhw; gas_equip; gas_dhw] ->
  map (fun row => nth_error row k) rows' = map (fun row => nth_error row k) rows.
Proof.
  intros C F E1 E2 H H' I.
  destruct (simulateMonthly_cases _ _ _ H) as (m & M & _ & S). destruct (simulateMonthly_cases _ _ _ H') as (m' & M' & _ & S').
  pose proof (sized_columns c p w C F E1 E2 m m' k M M' I) as E.
  assert (X : exists v, nth_error (columns (map_params Fin p) m) k = Some v).
  { cbn [In] in I. decompose [or] I; clear I; try contradiction; subst k; eexists; reflexivity. }
  destruct X as [v X]. rewrite X in E.
  pose proof (is_series_slot _ _ _ (S k v X)) as Y. pose proof (is_series_slot _ _ _ (S' k v E)) as Y'. unfold L_HourlyShape.slot_series in Y, Y'. congruence.
Qed.
Lemma C83_defined_l (c : R) (p : params_t R) w :
  (exists rows, simulateMonthly (map_params Fin p) w = Ok rows) <-> (exists rows, simulateMonthly (map_params Fin (sized c p)) w = Ok rows).
Proof.
  rewrite !C18_monthly_defined_l.
  assert (E : nine_surfaces (pa_structure (map_params Fin (sized c p))) <-> nine_surfaces (pa_structure (map_params Fin p))).
  { unfold nine_surfaces. cbn [map_params pa_structure sized map_structure st_wallArea st_windowArea st_wallU st_windowU st_wallEmissivity st_wallAbsorption st_windowSDF st_windowSHGC st_windowSCF].
    split; intros H v I; cbn [In] in I.
    - decompose [or] I; subst; try contradiction; try (apply H; cbn [In]; tauto);
        (rewrite map_length; match goal with |- length ?x = _ => rewrite <- (map_length (fun y => c * y) x), <- (map_length Fin) end; apply H; cbn [In]; tauto).
    - decompose [or] I; subst; try contradiction; try (apply H; cbn [In]; tauto);
        (rewrite !map_length; match goal with |- length ?x = _ => rewrite <- (map_length Fin x) end; apply H; cbn [In]; tauto). }
  change (shading_coded (pa_structure (map_params Fin (sized c p)))) with (shading_coded (pa_structure (map_params Fin p))).
  change (bem_castable (map_params Fin (sized c p))) with (bem_castable (map_params Fin p)). tauto.
Qed.
