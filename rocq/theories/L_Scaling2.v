From Coq Require Import Reals Lra Psatz String List ZArith Lia Bool.
From Verif Require Import Base Num Xr M_Params M_UserModel M_Hourly M_Monthly S_Calendar S_Loading S_Results S_Inputs S_Scaling
  L_Xr L_Calendar L_HourlyShape L_HourlyOut L_Inputs L_Inputs2 L_Scaling.
Import ListNotations.
Open Scope R_scope.

Section Columns.
Variables (c : R) (u u' : building_model xr) (ws : list (weather xr)) (r0 r r' : ratios xr) (raw raw' : list (hourres xr)).
Hypothesis Hc : 0 < c.
Hypothesis (H : simulateRaw (bm_params u) ws r0 = Ok (raw, r)).
Hypothesis (H' : simulateRaw (bm_params u') ws r0 = Ok (raw', r')).
Notation mult keys := (forall key, In key keys -> multiplied c key u u').
Ltac xops := change (@nmul xr _) with xmul in *; change (@ndiv xr _) with xdiv in *; change (@nadd xr _) with xadd in *.
Ltac pull := repeat first [rewrite (tm_mul_l c Hc)|rewrite (tm_mul_r c Hc)|rewrite (tm_div c Hc)|rewrite (tm_add c)|rewrite tm_if].

Lemma ext_light_times : mult ["exteriorlightingpower"%string] -> same_parameters ["floorarea"%string] u u' ->
  map hr_illum_ext raw' = map (tm c) (map hr_illum_ext raw).
Proof.
  intros M S. apply Forall2_map_by. refine (raw_rel anyT _ _ _ _ _ _ _ _ _ H H' I _).
  intros. split; [|exact I]. unfold calculateHour. cbn [fst hr_illum_ext]. unfold exteriorLighting.
  assert (E1 : li_exteriorEnergy (pa_lighting (bm_params u')) = tm c (li_exteriorEnergy (pa_lighting (bm_params u)))) by exact (key_times c _ "exteriorlightingpower" u u' _ M eq_refl eq_refl).
  assert (E2 : st_floorArea (pa_structure (bm_params u')) = st_floorArea (pa_structure (bm_params u))) by exact (key_same _ "floorarea" u u' _ S eq_refl eq_refl).
  rewrite E1, E2. cbn [sched_cell sc_extLight]. destruct (_ >? _)%num; [symmetry; apply tm_zn0|]. xops. pull. reflexivity.
Qed.
Lemma ext_equip_times : mult ["externalequipment"%string] -> same_parameters ["floorarea"%string] u u' ->
  map hr_extEquip raw' = map (tm c) (map hr_extEquip raw).
Proof.
  intros M S. apply Forall2_map_by. refine (raw_rel anyT _ _ _ _ _ _ _ _ _ H H' I _).
  intros. split; [|exact I]. unfold calculateHour. cbn [fst hr_extEquip sched_cell sc_extEquip].
  assert (E1 : bu_externalEquipment (pa_building (bm_params u')) = tm c (bu_externalEquipment (pa_building (bm_params u)))) by exact (key_times c _ "externalequipment" u u' _ M eq_refl eq_refl).
  assert (E2 : st_floorArea (pa_structure (bm_params u')) = st_floorArea (pa_structure (bm_params u))) by exact (key_same _ "floorarea" u u' _ S eq_refl eq_refl).
  rewrite E1, E2. xops. pull. reflexivity.
Qed.
Lemma plug_times : mult ["electricappliancepowerdensityoccupied"; "electricappliancepowerdensityunoccupied"]%string -> same_parameters occupancy_inputs u u' ->
  map hr_plug raw' = map (tm c) (map hr_plug raw).
Proof.
  intros M S. apply Forall2_map_by. refine (raw_rel_occ u u' ws r0 r r' raw raw' H H' anyT _ S I _).
  intros. split; [|exact I]. unfold calculateHour. cbn [fst hr_plug sched_cell sc_intEquip].
  assert (E1 : bu_elecApplianceOcc (pa_building (bm_params u')) = tm c (bu_elecApplianceOcc (pa_building (bm_params u)))) by exact (key_times c _ "electricappliancepowerdensityoccupied" u u' _ M eq_refl eq_refl).
  assert (E2 : bu_elecApplianceUnocc (pa_building (bm_params u')) = tm c (bu_elecApplianceUnocc (pa_building (bm_params u)))) by exact (key_times c _ "electricappliancepowerdensityunoccupied" u u' _ M eq_refl eq_refl).
  rewrite E1, E2. pull. reflexivity.
Qed.

(** Interior lights: everything but the two densities. *)
Definition other_light : list string := without ["lightingpowerdensityoccupied"; "lightingpowerdensityunoccupied"]%string hourly_light_inputs.
Lemma light_area_other : same_parameters other_light u u' -> forall sol,
  electricForTotalLightArea (pa_structure (bm_params u')) (initOf (bm_params u') r0) sol = electricForTotalLightArea (pa_structure (bm_params u)) (initOf (bm_params u) r0) sol.
Proof.
  clear H H'. intros S sol.
  assert (E : st_windowArea (pa_structure (bm_params u')) = st_windowArea (pa_structure (bm_params u)) /\
              st_windowSDF (pa_structure (bm_params u')) = st_windowSDF (pa_structure (bm_params u)) /\
              st_floorArea (pa_structure (bm_params u')) = st_floorArea (pa_structure (bm_params u)) /\
              st_irradianceForMaxShadingUse (pa_structure (bm_params u')) = st_irradianceForMaxShadingUse (pa_structure (bm_params u)) /\
              st_shadingFactorAtMaxUse (pa_structure (bm_params u')) = st_shadingFactorAtMaxUse (pa_structure (bm_params u)) /\
              lighting_control (pa_building (bm_params u')) (pa_lighting (bm_params u')) = lighting_control (pa_building (bm_params u)) (pa_lighting (bm_params u)) /\
              li_naturallyLightedArea (pa_lighting (bm_params u')) = li_naturallyLightedArea (pa_lighting (bm_params u))).
  { open_buildings u u'. identify S. repeat split. }
  destruct E as (E1 & E2 & E3 & E4 & E5 & E6 & E7).
  destruct (push_same_light _ _ E1 E2 E3 (seq 0 9) r0 r0) as (_ & L2 & L3); [repeat split|].
  unfold electricForTotalLightArea, lightingLevel, initOf, areaNatRatio.
  cbn [hi_maxRatio hi_elightNatural hi_areaNatRatio hi_shadingUse hi_ratios].
  rewrite E3, E4, E5, E6, E7, <- L2, <- L3. reflexivity.
Qed.
Lemma light_times : mult ["lightingpowerdensityoccupied"; "lightingpowerdensityunoccupied"]%string -> same_parameters other_light u u' ->
  map hr_illum raw' = map (tm c) (map hr_illum raw).
Proof.
  intros M S. apply Forall2_map_by. refine (raw_rel_occ u u' ws r0 r r' raw raw' H H' anyT _ (same_incl occupancy_inputs _ _ _ S eq_refl) I _).
  intros. split; [|exact I]. unfold calculateHour. cbn [fst hr_illum sched_cell sc_intLight].
  assert (E1 : li_densityOcc (pa_lighting (bm_params u')) = tm c (li_densityOcc (pa_lighting (bm_params u)))) by exact (key_times c _ "lightingpowerdensityoccupied" u u' _ M eq_refl eq_refl).
  assert (E2 : li_densityUnocc (pa_lighting (bm_params u')) = tm c (li_densityUnocc (pa_lighting (bm_params u)))) by exact (key_times c _ "lightingpowerdensityunoccupied" u u' _ M eq_refl eq_refl).
  rewrite E1, E2, (light_area_other S). xops. pull. reflexivity.
Qed.
Lemma fan_times : mult ["specificfanpower"%string] -> same_parameters (without ["specificfanpower"%string] hourly_fan_inputs) u u' ->
  map hr_fan raw' = map (tm c) (map hr_fan raw).
Proof.
  intros M S0. pose proof (same_incl hourly_need_inputs _ _ _ S0 eq_refl) as S.
  apply Forall2_map_by. refine (raw_rel_occ u u' ws r0 r r' raw raw' H H' eq _ (same_incl occupancy_inputs _ _ _ S eq_refl) eq_refl _).
  intros ds de hs he h d w th th' <-.
  destruct (need_parts u u' r0 S ds de hs he h d w th) as (Q1 & Q2 & Q3 & Q4 & Q5 & Q6 & Q7).
  unfold calculateHour. cbn [fst snd hr_fan]. rewrite Q2, Q3, Q4, Q6, Q7. split; [|reflexivity].
  match goal with |- fanEnergy _ ?v _ ?x ?y = _ => generalize v x y end. intros v x y. unfold fanEnergy.
  assert (E1 : ve_fanPower (pa_ventilation (bm_params u')) = tm c (ve_fanPower (pa_ventilation (bm_params u)))) by exact (key_times c _ "specificfanpower" u u' _ M eq_refl eq_refl).
  pose proof (key_same _ "dt_supp_ht" u u' _ S0 eq_refl eq_refl) as E2. pose proof (key_same _ "dt_supp_cl" u u' _ S0 eq_refl eq_refl) as E3.
  pose proof (key_same _ "rhocpair" u u' _ S0 eq_refl eq_refl) as E4. pose proof (key_same _ "heatingsetpointoccupied" u u' _ S0 eq_refl eq_refl) as E5.
  pose proof (key_same _ "coolingsetpointoccupied" u u' _ S0 eq_refl eq_refl) as E6.
  pose proof (flag_same _ "forcedairheating" u u' _ S0 eq_refl eq_refl) as E7. pose proof (flag_same _ "forcedaircooling" u u' _ S0 eq_refl eq_refl) as E8.
  cbn [snd] in E2, E3, E4, E5, E6, E7, E8. rewrite E1, E2, E3, E4, E5, E6, E7, E8. xops. pull. reflexivity.
Qed.
Lemma pump_times keys : In keys [["e_pumps_ht"; "e_pumps_cl"]; ["heatingpumpcontrol"; "coolingpumpcontrol"]]%string ->
  mult keys -> same_parameters (without keys hourly_pump_inputs) u u' ->
  map hr_pump raw' = map (tm c) (map hr_pump raw).
Proof.
  intros K M S0. assert (S : same_parameters hourly_need_inputs u u') by (destruct K as [<-|[<-|[]]]; exact (same_incl hourly_need_inputs _ _ _ S0 eq_refl)).
  apply Forall2_map_by. refine (raw_rel_occ u u' ws r0 r r' raw raw' H H' eq _ (same_incl occupancy_inputs _ _ _ S eq_refl) eq_refl _).
  intros ds de hs he h d w th th' <-.
  destruct (need_parts u u' r0 S ds de hs he h d w th) as (Q1 & Q2 & Q3 & Q4 & Q5 & Q6 & Q7).
  unfold calculateHour. cbn [fst snd hr_pump]. rewrite Q3, Q4, Q6, Q7. split; [|reflexivity].
  match goal with |- pumpEnergy _ ?x ?y = _ => generalize x y end. intros x y. unfold pumpEnergy.
  destruct K as [<-|[<-|[]]].
  - pose proof (key_times c _ "e_pumps_ht" u u' _ M eq_refl eq_refl) as E1. pose proof (key_times c _ "e_pumps_cl" u u' _ M eq_refl eq_refl) as E2.
    pose proof (key_same _ "heatingpumpcontrol" u u' _ S0 eq_refl eq_refl) as E3. pose proof (key_same _ "coolingpumpcontrol" u u' _ S0 eq_refl eq_refl) as E4.
    cbn [snd] in E1, E2, E3, E4. rewrite E1, E2, E3, E4. destruct (y >? _)%num; [xops; pull; reflexivity|]. destruct (x >? _)%num; [xops; pull; reflexivity|]. symmetry. apply tm_zn0.
  - pose proof (key_same _ "e_pumps_ht" u u' _ S0 eq_refl eq_refl) as E1. pose proof (key_same _ "e_pumps_cl" u u' _ S0 eq_refl eq_refl) as E2.
    pose proof (key_times c _ "heatingpumpcontrol" u u' _ M eq_refl eq_refl) as E3. pose proof (key_times c _ "coolingpumpcontrol" u u' _ M eq_refl eq_refl) as E4.
    cbn [snd] in E1, E2, E3, E4. rewrite E1, E2, E3, E4. destruct (y >? _)%num; [xops; pull; reflexivity|]. destruct (x >? _)%num; [xops; pull; reflexivity|]. symmetry. apply tm_zn0.
Qed.
End Columns.
