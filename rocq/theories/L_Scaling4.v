(** The columns of the monthly engine. *)
From Coq Require Import Reals Lra Psatz String List ZArith Lia Bool.
From Verif Require Import Base Num Xr M_Params M_UserModel M_Hourly M_Monthly S_Monthly S_Calendar S_Loading S_Results S_Inputs S_Scaling
  L_Xr L_Calendar L_HourlyShape L_HourlyOut L_Monthly3 L_Inputs L_Inputs2 L_Scaling L_Scaling3.
Import ListNotations.
Open Scope R_scope.

Definition nz (x : xr) : Prop := neqb x (zn 0) = false.
Lemma nz_of x : x <> Fin 0 -> nz x.
Proof. intros N. unfold nz. rewrite zn0. destruct x as [y| | |]; cbn; try reflexivity. apply Reqb_false. intros ->. apply N. reflexivity. Qed.
Section V.
Variable c : R.
Hypothesis Hc : 0 < c.
Notation Hi := (Rinv_0_lt_compat c Hc).
Lemma v_scale v x : scale v (tm c x) = map (tm c) (scale v x).
Proof. unfold scale. rewrite map_map. apply map_ext. intros a. exact (tm_mul_r c Hc a x). Qed.
Lemma v_scale' v x : scale (map (tm c) v) x = map (tm c) (scale v x).
Proof. unfold scale. rewrite !map_map. apply map_ext. intros a. exact (tm_mul_l c Hc a x). Qed.
Lemma v_divs v s : nz s -> divs (map (tm c) v) s = map (tm c) (divs v s).
Proof. intros N. unfold divs, sdiv. rewrite N, !map_map. apply map_ext. intros a. exact (tm_div c Hc a s). Qed.
Lemma v_divs_inv v s : nz s -> divs v (tm c s) = map (tm (/ c)) (divs v s).
Proof.
  intros N. unfold divs, sdiv. assert (N' : neqb (tm c s) (zn 0) = false) by (unfold nz in N; rewrite zn0 in *; rewrite (tm_eq0 c Hc); exact N).
  rewrite N, N', !map_map. apply map_ext. intros a. exact (div_tm c a s Hc).
Qed.
Lemma v_zero : all12 (zn 0) = map (tm c) (all12 (zn 0)).
Proof. unfold all12. cbn [repeat map]. rewrite tm_zn0. reflexivity. Qed.
Lemma v_sub0 v n : zipw nsub (map (tm c) v) (repeat (zn 0) n) = map (tm c) (zipw nsub v (repeat (zn 0) n)).
Proof.
  revert n. induction v as [|x v IH]; intros [|n]; try reflexivity. cbn [map repeat zipw]. rewrite IH. f_equal.
  rewrite zn0. exact (tm_sub0 c x).
Qed.
Lemma v_max0 v : map (fun x => nmax x (zn 0)) (map (tm c) v) = map (tm c) (map (fun x => nmax x (zn 0)) v).
Proof. rewrite !map_map. apply map_ext. intros x. rewrite zn0. exact (tm_max0 c Hc x). Qed.
End V.

Section Columns.
Variables (c : R) (u u' : building_model xr) (w : mweather xr) (m m' : mresult xr).
Hypothesis Hc : 0 < c.
Hypothesis (R1 : run (bm_params u) w m) (R' : run (bm_params u') w m').
Hypothesis (NZ : forall key, In key divisors -> nonzero_parameter key u).
Notation mult keys := (forall key, In key keys -> multiplied c key u u').
Notation Hi := (Rinv_0_lt_compat c Hc).
Ltac xops := change (@nmul xr _) with xmul in *; change (@ndiv xr _) with xdiv in *; change (@nadd xr _) with xadd in *.
Ltac pull := repeat first [rewrite (tm_mul_l c Hc)|rewrite (tm_mul_r c Hc)|rewrite (tm_div c Hc)|rewrite (tm_add c)|rewrite tm_if].

Lemma nz_key key p : existsb (String.eqb key) divisors = true -> number_of key = Some p -> nz (p u).
Proof. intros E F. apply nz_of, (NZ key (key_in _ _ E)), key_number, F. Qed.
Lemma floor_nz : nz (st_floorArea (pa_structure (bm_params u))).
Proof. exact (nz_key "floorarea" _ eq_refl eq_refl). Qed.
Lemma lights_times : mult ["lightingpowerdensityoccupied"; "lightingpowerdensityunoccupied"]%string ->
  same_parameters (without ["lightingpowerdensityoccupied"; "lightingpowerdensityunoccupied"]%string monthly_light_inputs) u u' ->
  divs (lu_month (mr_lu m')) (st_floorArea (pa_structure (bm_params u'))) = map (tm c) (divs (lu_month (mr_lu m)) (st_floorArea (pa_structure (bm_params u)))).
Proof.
  intros M S. rewrite (rn_lu _ _ _ R'), (rn_lu _ _ _ R1). cbn [lu_month lightingEnergyUse].
  assert (E : lightDayHours (pa_lighting (bm_params u')) (pa_population (bm_params u')) = lightDayHours (pa_lighting (bm_params u)) (pa_population (bm_params u)) /\
    lightNightHours (pa_lighting (bm_params u')) (pa_population (bm_params u')) = lightNightHours (pa_lighting (bm_params u)) (pa_population (bm_params u)) /\
    st_floorArea (pa_structure (bm_params u')) = st_floorArea (pa_structure (bm_params u)) /\
    bu_constantIllumination (pa_building (bm_params u')) = bu_constantIllumination (pa_building (bm_params u)) /\
    bu_lightingOccupancySensor (pa_building (bm_params u')) = bu_lightingOccupancySensor (pa_building (bm_params u)) /\
    li_dimmingFraction (pa_lighting (bm_params u')) = li_dimmingFraction (pa_lighting (bm_params u))).
  { clear - S. open_buildings u u'. identify S. repeat split. }
  destruct E as (E1&E2&E3&E4&E5&E6).
  pose proof (key_times c _ "lightingpowerdensityoccupied" u u' _ M eq_refl eq_refl) as E7. pose proof (key_times c _ "lightingpowerdensityunoccupied" u u' _ M eq_refl eq_refl) as E8.
  cbn [snd] in E7, E8. rewrite E1, E2, E3, E4, E5, E6, E7, E8. xops. pull. rewrite (v_scale c Hc), (v_divs c Hc _ _ floor_nz). reflexivity.
Qed.
Lemma yard_times : mult ["exteriorlightingpower"%string] -> same_parameters ["floorarea"%string] u u' ->
  divs (lu_ext (mr_lu m')) (st_floorArea (pa_structure (bm_params u'))) = map (tm c) (divs (lu_ext (mr_lu m)) (st_floorArea (pa_structure (bm_params u)))).
Proof.
  intros M S. rewrite (rn_lu _ _ _ R'), (rn_lu _ _ _ R1), (sundown_same u u' w m m' R1 R'). cbn [lu_ext lightingEnergyUse].
  pose proof (key_times c _ "exteriorlightingpower" u u' _ M eq_refl eq_refl) as E1. pose proof (key_same _ "floorarea" u u' _ S eq_refl eq_refl) as E2.
  cbn [snd] in E1, E2. rewrite E1, E2. xops. pull. rewrite (v_scale c Hc), (v_divs c Hc _ _ floor_nz). reflexivity.
Qed.
Lemma fans_times : mult ["specificfanpower"%string] -> same_parameters (without ["specificfanpower"%string] monthly_fan_inputs) u u' ->
  ne_fan (mr_needs m') = map (tm c) (ne_fan (mr_needs m)).
Proof.
  intros M S0. pose proof (same_incl monthly_need_inputs _ _ _ S0 eq_refl) as S.
  destruct (needs_same _ _ _ _ _ S R1 R') as (E1 & E2 & E3 & E4 & E5 & E6 & E7).
  assert (F : forall p q, run p w q -> ne_fan (mr_needs q) = fanEnergyMonthly p (oc_wk_day (mr_occ q)) (te_h (mr_temps q)) (te_c (mr_temps q)) (ne_ht (mr_needs q)) (ne_cl (mr_needs q))).
  { intros p q Q. rewrite (rn_needs _ _ _ Q). reflexivity. }
  rewrite (F _ _ R'), (F _ _ R1), E1, E2, E5, E6, E7. unfold fanEnergyMonthly.
  pose proof (key_same _ "dt_supp_ht" u u' _ S0 eq_refl eq_refl) as K1. pose proof (key_same _ "dt_supp_cl" u u' _ S0 eq_refl eq_refl) as K2.
  pose proof (key_same _ "rhocpair" u u' _ S0 eq_refl eq_refl) as K3. pose proof (key_same _ "heatingsetpointoccupied" u u' _ S0 eq_refl eq_refl) as K4.
  pose proof (key_same _ "coolingsetpointoccupied" u u' _ S0 eq_refl eq_refl) as K5. pose proof (key_same _ "fanflowcontrolfactor" u u' _ S0 eq_refl eq_refl) as K6.
  pose proof (key_same _ "ventilationintakerateoccupied" u u' _ S0 eq_refl eq_refl) as K7. pose proof (key_same _ "floorarea" u u' _ S0 eq_refl eq_refl) as K8.
  pose proof (key_times c _ "specificfanpower" u u' _ M eq_refl eq_refl) as K9. cbn [snd] in K1, K2, K3, K4, K5, K6, K7, K8, K9.
  cbv zeta. rewrite K1, K2, K3, K4, K5, K6, K7, K8, K9. xops. pull. rewrite (v_scale c Hc), (v_divs c Hc _ _ floor_nz), (v_divs c Hc); [reflexivity|].
  apply nz_of. unfold lit. cbn. unfold Rlit. intros X. injection X. lra.
Qed.
Lemma plugs_times (occ unocc occ' unocc' : xr) d : occ' = tm c occ -> unocc' = tm c unocc -> plugLoad occ' unocc' d = map (tm c) (plugLoad occ unocc d).
Proof.
  intros -> ->. unfold plugLoad. xops. pull. rewrite (v_scale c Hc). apply (v_divs c Hc). apply nz_of. unfold zn. cbn. unfold Rlit. intros X. injection X. lra.
Qed.
Lemma year_nz : nz daysInYear.
Proof. apply nz_of. unfold daysInYear, zn. cbn. unfold Rlit. intros X. injection X. lra. Qed.
Lemma kWh2MJ_nz : nz kWh2MJ.
Proof. apply nz_of. unfold kWh2MJ, zn. cbn. unfold Rlit. intros X. injection X. lra. Qed.
Lemma water_times keys d : In (keys, d) [(["dhwdemand"], Proportional); (["dhwsystemefficiency"], Inverse); (["dhwdistributionefficiency"], Inverse)]%string -> mult keys ->
  same_parameters (without keys monthly_water_inputs) u u' ->
  divs (fst (mr_dhw m')) (st_floorArea (pa_structure (bm_params u'))) = map (tm (factor d c)) (divs (fst (mr_dhw m)) (st_floorArea (pa_structure (bm_params u)))) /\
  divs (snd (mr_dhw m')) (st_floorArea (pa_structure (bm_params u'))) = map (tm (factor d c)) (divs (snd (mr_dhw m)) (st_floorArea (pa_structure (bm_params u)))).
Proof.
  intros K M S. rewrite (rn_dhw _ _ _ R'), (rn_dhw _ _ _ R1).
  pose proof (factor_pos d c Hc) as Hf. pose proof (nz_key "dhwsystemefficiency" _ eq_refl eq_refl) as N1. pose proof (nz_key "dhwdistributionefficiency" _ eq_refl eq_refl) as N2. cbn [snd] in N1, N2.
  assert (A : st_floorArea (pa_structure (bm_params u')) = st_floorArea (pa_structure (bm_params u)) /\ ht_hotWaterEnergyType (pa_heating (bm_params u')) = ht_hotWaterEnergyType (pa_heating (bm_params u)) /\
    ht_dhw_tset (pa_heating (bm_params u')) = ht_dhw_tset (pa_heating (bm_params u)) /\ ht_dhw_tsupply (pa_heating (bm_params u')) = ht_dhw_tsupply (pa_heating (bm_params u)) /\
    ph_rhoCpWater (pa_phys (bm_params u')) = ph_rhoCpWater (pa_phys (bm_params u))).
  { clear - S K. destruct K as [K|[K|[K|[]]]]; injection K as <- <-; open_buildings u u'; identify S; repeat split. }
  destruct A as (A1&A2&A3&A4&A5).
  assert (W : hotWaterNeed (bm_params u') = map (tm (factor d c)) (hotWaterNeed (bm_params u))).
  { unfold hotWaterNeed, hotWaterYear. rewrite A3, A4, A5. destruct K as [K|[K|[K|[]]]]; injection K as <- <-; cbn [factor] in *.
    - pose proof (key_times c _ "dhwdemand" u u' _ M eq_refl eq_refl) as B1. pose proof (key_same _ "dhwsystemefficiency" u u' _ S eq_refl eq_refl) as B2.
      pose proof (key_same _ "dhwdistributionefficiency" u u' _ S eq_refl eq_refl) as B3. cbn [snd] in B1, B2, B3. rewrite B1, B2, B3. xops. pull.
      rewrite (v_scale c Hc), (v_divs c Hc _ _ year_nz), (v_divs c Hc _ _ N2), (v_divs c Hc _ _ kWh2MJ_nz). unfold vsub, all12. rewrite (v_sub0 c), (v_divs c Hc _ _ N1). apply (v_max0 c Hc).
    - pose proof (key_same _ "dhwdemand" u u' _ S eq_refl eq_refl) as B1. pose proof (key_times c _ "dhwsystemefficiency" u u' _ M eq_refl eq_refl) as B2.
      pose proof (key_same _ "dhwdistributionefficiency" u u' _ S eq_refl eq_refl) as B3. cbn [snd] in B1, B2, B3. rewrite B1, B2, B3.
      rewrite (v_divs_inv c Hc _ _ N1). apply (v_max0 _ Hf).
    - pose proof (key_same _ "dhwdemand" u u' _ S eq_refl eq_refl) as B1. pose proof (key_same _ "dhwsystemefficiency" u u' _ S eq_refl eq_refl) as B2.
      pose proof (key_times c _ "dhwdistributionefficiency" u u' _ M eq_refl eq_refl) as B3. cbn [snd] in B1, B2, B3. rewrite B1, B2, B3.
      rewrite (v_divs_inv c Hc _ _ N2), (v_divs _ Hf _ _ kWh2MJ_nz). unfold vsub, all12. rewrite (v_sub0 _), (v_divs _ Hf _ _ N1). apply (v_max0 _ Hf). }
  unfold heatedWater. rewrite A1, A2, W. destruct (_ =? _)%num; cbn [fst snd]; split; rewrite <- ?(v_divs _ Hf _ _ floor_nz), <- ?(v_zero (factor d c)); reflexivity.
Qed.
Lemma monthly_column_times k keys d : In (k, keys, d) monthly_scaling -> mult keys -> same_parameters (without keys (monthly_inputs k)) u u' ->
  nth_error (columns (bm_params u') m') k = option_map (map (tm (factor d c))) (nth_error (columns (bm_params u) m) k).
Proof.
  intros I M S. unfold monthly_scaling in I. cbn [In] in I. unfold columns, outputColumns.
  repeat match type of I with _ \/ _ => destruct I as [I|I] | False => destruct I end; injection I as <- <- <-; cbn [factor];
  unfold elec_int_lights, elec_ext_lights, elec_fans, elec_int_equip, gas_equip, elec_dhw, gas_dhw in *; cbn [nth_error option_map]; f_equal.
  - exact (lights_times M S).
  - exact (yard_times M S).
  - exact (fans_times M S).
  - rewrite (occ_same u u' w m m' R1 R') by exact S. apply plugs_times; [exact (key_times c _ "electricappliancepowerdensityoccupied" u u' _ M eq_refl eq_refl)|exact (key_times c _ "electricappliancepowerdensityunoccupied" u u' _ M eq_refl eq_refl)].
  - rewrite (occ_same u u' w m m' R1 R') by exact S. apply plugs_times; [exact (key_times c _ "gasappliancepowerdensityoccupied" u u' _ M eq_refl eq_refl)|exact (key_times c _ "gasappliancepowerdensityunoccupied" u u' _ M eq_refl eq_refl)].
  - exact (proj1 (water_times _ Proportional (or_introl eq_refl) M S)).
  - exact (proj2 (water_times _ Proportional (or_introl eq_refl) M S)).
  - exact (proj1 (water_times _ Inverse (or_intror (or_introl eq_refl)) M S)).
  - exact (proj2 (water_times _ Inverse (or_intror (or_introl eq_refl)) M S)).
  - exact (proj1 (water_times _ Inverse (or_intror (or_intror (or_introl eq_refl))) M S)).
  - exact (proj2 (water_times _ Inverse (or_intror (or_intror (or_introl eq_refl))) M S)).
Qed.
End Columns.

Lemma C89_monthly_l c u u' w rows rows' k keys d : 0 < c -> In (k, keys, d) monthly_scaling -> (forall key, In key divisors -> nonzero_parameter key u) ->
  (forall key, In key keys -> multiplied c key u u') -> same_parameters (without keys (monthly_inputs k)) u u' ->
  simulateMonthly (bm_params u) w = Ok rows -> simulateMonthly (bm_params u') w = Ok rows' ->
  column k rows' = all_times (factor d c) (column k rows).
Proof.
  intros Hc I NZ M S H H'.
  destruct (simulateMonthly_cases _ _ _ H) as (m & R1 & [Sl Sh] & C). destruct (simulateMonthly_cases _ _ _ H') as (m' & R' & [Sl' Sh'] & C').
  pose proof (monthly_column_times c u u' w m m' Hc R1 R' NZ k keys d I M S) as E.
  assert (K : (k < 13)%nat) by (clear - I; unfold monthly_scaling in I; cbn [In] in I; repeat match type of I with _ \/ _ => destruct I as [I|I] | False => destruct I end; injection I as <- _ _; unfold elec_int_lights, elec_ext_lights, elec_fans, elec_int_equip, gas_equip, elec_dhw, gas_dhw; lia).
  destruct (nth_error (columns (bm_params u) m) k) as [v|] eqn:Ev.
  - cbn [option_map] in E. exact (tm_series (factor d c) k rows rows' _ (C k v Ev) (C' k _ E)).
  - apply nth_error_None in Ev. unfold columns, outputColumns in Ev. cbn [length] in Ev. lia.
Qed.
