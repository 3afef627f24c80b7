(** The extended-real run of the hourly model on finite physical data is the real run:
    no division by zero, no NaN, no infinity. *)
From Coq Require Import Reals Lra Psatz ZArith List Bool.
From Verif Require Import Base Num Xr M_Params M_Hourly M_Map L_Xr L_HourlyR S_Physical.
Import ListNotations.
Open Scope R_scope.

Ltac xstep :=
  first [ rewrite lit_fin | rewrite add_fin | rewrite sub_fin | rewrite mul_fin
        | rewrite opp_fin | rewrite abs_fin | rewrite max_fin | rewrite min_fin ].

Lemma at9_fin (l : list R) k : at9 (map Fin l) k = Fin (at9 l k).
Proof. unfold at9. rewrite zn_fin. apply map_nth. Qed.
Lemma nine_map {A B} (f : A -> B) l : @nine B (map f l) = @nine A l.
Proof. unfold nine. rewrite map_length. reflexivity. Qed.

Lemma structure_nine_map {A B} (f : A -> B) s : structure_nine (map_structure f s) = structure_nine s.
Proof. unfold structure_nine, map_structure, nine. cbn [st_windowSDF st_wallArea st_windowArea st_wallU st_windowU st_wallAbsorption st_windowSCF st_windowSHGC]. rewrite !map_length. reflexivity. Qed.

Section OneBuilding.
Variable p : params_t R.
Hypothesis HP : physical p.
Let s := pa_structure p.
Let P := map_params Fin p.
Let S' := pa_structure P.

Lemma area_ne : st_floorArea s <> 0.
Proof. pose proof (phy_area p HP). unfold s. lra. Qed.

Ltac num := cbv [zn]; cbn [lit nadd nsub nmul ndiv nopp nabs nlt neqb npow R_num]; rewrite ?nmax_R, ?nmin_R; cbv [Rlit].

Lemma areaNatRatio_fin : areaNatRatio P = Fin (areaNatRatio p).
Proof.
  unfold areaNatRatio. cbn [P map_params map_lighting map_structure pa_lighting pa_structure li_naturallyLightedArea st_floorArea].
  rewrite lit_fin, max_fin, div_fin by apply area_ne. reflexivity.
Qed.
Lemma areaNatRatio_pos : 0 < areaNatRatio p.
Proof.
  unfold areaNatRatio. num. apply Rdiv_lt_0_compat; [|exact (phy_area p HP)].
  apply Rlt_le_trans with (1 / 10000); [lra|apply Rmax_l].
Qed.

Lemma q4Pa_fin : q4Pa_of P = Fin (q4Pa_of p).
Proof.
  unfold q4Pa_of. cbn [P map_params map_ventilation map_structure pa_ventilation pa_structure ve_n50 st_floorArea st_buildingHeight].
  rewrite !lit_fin, !mul_fin, div_fin, max_fin by apply area_ne. reflexivity.
Qed.
Lemma q4Pa_pos : 0 < q4Pa_of p.
Proof. unfold q4Pa_of. num. apply Rlt_le_trans with (1 / 1000000); [lra|apply Rmax_l]. Qed.

Lemma h_ms_fin : h_ms_of P = Fin (h_ms_of p).
Proof. reflexivity. Qed.
Lemma h_ms_gt : ss_hci (pa_settings p) < h_ms_of p.
Proof. unfold h_ms_of. num. pose proof (phy_hri p HP). lra. Qed.
Lemma h_ms_pos : 0 < h_ms_of p.
Proof. pose proof h_ms_gt. pose proof (phy_hci p HP). lra. Qed.

Lemma is_den_pos : 0 < 1 / ss_hci (pa_settings p) - 1 / h_ms_of p.
Proof.
  pose proof h_ms_gt. pose proof (phy_hci p HP). pose proof h_ms_pos.
  assert (/ h_ms_of p < / ss_hci (pa_settings p)) by (apply Rinv_lt_contravar; [apply Rmult_lt_0_compat|]; lra). lra.
Qed.
Lemma H_tris_fin : H_tris_of P = Fin (H_tris_of p).
Proof.
  unfold H_tris_of. rewrite h_ms_fin.
  cbn [P map_params map_settings map_structure pa_settings pa_structure ss_hci st_totalAreaPerFloorArea].
  rewrite !zn_fin. pose proof (phy_hci p HP). pose proof h_ms_pos. pose proof is_den_pos as D.
  rewrite !div_fin by lra. rewrite sub_fin.
  rewrite div_fin; [rewrite mul_fin; reflexivity|]. num. lra.
Qed.
Lemma H_tris_pos : 0 < H_tris_of p.
Proof.
  unfold H_tris_of. num. pose proof is_den_pos as D. pose proof (phy_tapfa p HP).
  apply Rmult_lt_0_compat; [|assumption]. apply Rdiv_lt_0_compat; [lra|]. lra.
Qed.

Lemma Cm_fin : Cm_of S' = Fin (Cm_of s).
Proof.
  unfold Cm_of. cbn [S' P map_params map_structure pa_structure st_interiorHeatCapacity st_wallHeatCapacity st_wallArea st_floorArea].
  rewrite accumulate_fin, !zn_fin, mul_fin. assert (zn 1000 <> 0) by (num; lra).
  rewrite !div_fin by (assumption || apply area_ne). rewrite add_fin. reflexivity.
Qed.
Lemma Cm_nonneg : 0 <= Cm_of s.
Proof.
  unfold Cm_of. rewrite accumulate_R. num.
  pose proof (phy_Ci p HP). pose proof (phy_Cw p HP). pose proof (phy_area p HP) as HA.
  assert (0 <= fold_left Rplus (st_wallArea s) 0) by (apply fold_add_nonneg; exact (phy_wallArea p HP)).
  assert (0 <= st_wallHeatCapacity s * fold_left Rplus (st_wallArea s) 0 / st_floorArea s).
  { apply Rmult_le_pos; [apply Rmult_le_pos; assumption|]. left. apply Rinv_0_lt_compat. exact HA. }
  unfold s in *. lra.
Qed.

Lemma surf_fin k : surf_at S' k =
  {| su_nlams := Fin (su_nlams (surf_at s k)); su_nla := Fin (su_nla (surf_at s k));
     su_sams := Fin (su_sams (surf_at s k)); su_sa := Fin (su_sa (surf_at s k));
     su_htot := Fin (su_htot (surf_at s k)); su_hWindow := Fin (su_hWindow (surf_at s k)) |}.
Proof.
  unfold surf_at, structureCalculations.
  cbn [S' P map_params map_structure pa_structure st_R_se st_windowSDF st_wallArea st_windowArea st_wallU st_windowU
       st_wallAbsorption st_windowSCF st_windowSHGC].
  rewrite !at9_fin, !lit_fin. rewrite div_fin by (num; lra). reflexivity.
Qed.

Lemma fold_fin_idx (f : nat -> xr) (g : nat -> R) : (forall k, f k = Fin (g k)) ->
  forall l a, fold_left (fun acc i => nadd acc (f i)) l (Fin a) = Fin (fold_left (fun acc i => nadd acc (g i)) l a).
Proof.
  intros H. induction l as [|k l IH]; intros a; [reflexivity|]. cbn [fold_left]. rewrite H, add_fin. apply IH.
Qed.
Lemma hWind_fin : hWind_of S' = Fin (hWind_of s).
Proof. unfold hWind_of. rewrite zn_fin. apply (fold_fin_idx (fun i => su_hWindow (surf_at S' i)) (fun i => su_hWindow (surf_at s i))).
  intros k. rewrite surf_fin. reflexivity. Qed.
Lemma hWall_fin : hWall_of S' = Fin (hWall_of s).
Proof. unfold hWall_of. rewrite zn_fin.
  apply (fold_fin_idx (fun i => nsub (su_htot (surf_at S' i)) (su_hWindow (surf_at S' i)))
                      (fun i => nsub (su_htot (surf_at s i)) (su_hWindow (surf_at s i)))).
  intros k. rewrite surf_fin. reflexivity. Qed.
Lemma hwin_fin : hwin_of S' = Fin (hwin_of s).
Proof. unfold hwin_of. rewrite hWind_fin. cbn [S' P map_params map_structure pa_structure st_floorArea].
  rewrite div_fin by apply area_ne. reflexivity. Qed.
Lemma hOpaque_fin : hOpaque_of S' = Fin (hOpaque_of s).
Proof. unfold hOpaque_of. rewrite hWall_fin, lit_fin. cbn [S' P map_params map_structure pa_structure st_floorArea].
  rewrite div_fin by apply area_ne. apply max_fin. Qed.

(** Nine-fold sums as sums of products. *)
Lemma list9 {A} (l : list A) : length l = 9%nat ->
  exists a b c d e f g h i, l = [a; b; c; d; e; f; g; h; i].
Proof.
  intros H. do 9 (destruct l as [|? l]; [discriminate H|]). destruct l; [|discriminate H].
  repeat eexists.
Qed.
Lemma hWall_dot : hWall_of s = dot (st_wallArea s) (st_wallU s).
Proof.
  pose proof (phy_wallArea9 p HP) as L1. pose proof (phy_wallU9 p HP) as L2. fold s in L1, L2.
  unfold hWall_of, surf_at, structureCalculations, at9. cbn [seq fold_left su_htot su_hWindow].
  destruct (list9 _ L1) as (a1&a2&a3&a4&a5&a6&a7&a8&a9&E1). destruct (list9 _ L2) as (b1&b2&b3&b4&b5&b6&b7&b8&b9&E2).
  rewrite E1, E2. cbn [nth]. unfold dot, Rsum. cbn [combine map fold_right fst snd]. num. lra.
Qed.
Lemma hWind_dot : hWind_of s = dot (st_windowArea s) (st_windowU s).
Proof.
  pose proof (phy_windowArea9 p HP) as L1. pose proof (phy_windowU9 p HP) as L2. fold s in L1, L2.
  unfold hWind_of, surf_at, structureCalculations, at9. cbn [seq fold_left su_htot su_hWindow].
  destruct (list9 _ L1) as (a1&a2&a3&a4&a5&a6&a7&a8&a9&E1). destruct (list9 _ L2) as (b1&b2&b3&b4&b5&b6&b7&b8&b9&E2).
  rewrite E1, E2. cbn [nth]. unfold dot, Rsum. cbn [combine map fold_right fst snd]. num. lra.
Qed.
Lemma dot_nonneg a : forall b, all_nonneg a -> all_nonneg b -> 0 <= dot a b.
Proof.
  unfold dot, Rsum. induction a as [|x a IH]; intros [|y b] Ha Hb; cbn [combine map fold_right fst snd]; try lra.
  assert (0 <= x * y) by (apply Rmult_le_pos; [apply Ha|apply Hb]; left; reflexivity).
  assert (0 <= fold_right Rplus 0 (map (fun p0 : R * R => fst p0 * snd p0) (combine a b))).
  { apply IH; intros z Hz; [apply Ha|apply Hb]; right; exact Hz. }
  lra.
Qed.
Lemma hwin_nonneg : 0 <= hwin_of s.
Proof.
  unfold hwin_of. rewrite hWind_dot. num. apply Rmult_le_pos.
  - apply dot_nonneg; [exact (phy_windowArea p HP)|exact (phy_windowU p HP)].
  - left. apply Rinv_0_lt_compat. exact (phy_area p HP).
Qed.
Lemma hOpaque_pos : 0 < hOpaque_of s.
Proof. unfold hOpaque_of. num. apply Rlt_le_trans with (1 / 1000000); [lra|apply Rmax_r]. Qed.

Lemma massArea_fin c : massArea (Fin c) = Fin (massArea c).
Proof.
  unfold massArea. rewrite !zn_fin, !lit_fin, !lt_fin, !sub_fin.
  rewrite !div_fin by (num; lra). rewrite !mul_fin, !add_fin, !if_fin. reflexivity.
Qed.

Lemma H_ms_fin : H_ms_of P = Fin (H_ms_of p).
Proof. unfold H_ms_of. rewrite h_ms_fin. change (pa_structure P) with S'. rewrite Cm_fin, massArea_fin. apply mul_fin. Qed.
End OneBuilding.

Lemma massArea_bounds (c : R) : 2.5 <= massArea c <= 3.5.
Proof.
  unfold massArea. cbv [zn]. cbn [lit nadd nsub nmul ndiv nlt R_num]. cbv [Rlit].
  destruct (Rltb_spec (370 / 1) c); [lra|]. destruct (Rltb_spec (260 / 1) c); [lra|].
  destruct (Rltb_spec (165 / 1) c); lra.
Qed.

Lemma hinit_eq {T} a0 a1 a2 a3 a4 a5 a6 a7 a8 a9 a10 a11 a12 a13 a14 a15 a16 a17 b0 b1 b2 b3 b4 b5 b6 b7 b8 b9 b10 b11 b12 b13 b14 b15 b16 b17 :
  a0 = b0 -> a1 = b1 -> a2 = b2 -> a3 = b3 -> a4 = b4 -> a5 = b5 -> a6 = b6 -> a7 = b7 -> a8 = b8 -> a9 = b9 -> a10 = b10 -> a11 = b11 -> a12 = b12 -> a13 = b13 -> a14 = b14 -> a15 = b15 -> a16 = b16 -> a17 = b17 ->
  @mkHinit T a0 a1 a2 a3 a4 a5 a6 a7 a8 a9 a10 a11 a12 a13 a14 a15 a16 a17 = mkHinit b0 b1 b2 b3 b4 b5 b6 b7 b8 b9 b10 b11 b12 b13 b14 b15 b16 b17.
Proof. intros; subst; reflexivity. Qed.

Section OneBuilding2.
Variable p : params_t R.
Hypothesis HP : physical p.
Let s := pa_structure p.
Let P := map_params Fin p.
Let S' := pa_structure P.
Ltac num := cbv [zn]; cbn [lit nadd nsub nmul ndiv nopp nabs nlt neqb npow R_num]; rewrite ?nmax_R, ?nmin_R; cbv [Rlit].

Lemma H_ms_pos : 0 < H_ms_of p.
Proof.
  unfold H_ms_of. num. pose proof (massArea_bounds (Cm_of (pa_structure p))). pose proof (h_ms_pos p HP).
  apply Rmult_lt_0_compat; lra.
Qed.
Lemma hOpaque_lt_ms : hOpaque_of s < H_ms_of p.
Proof.
  pose proof (phy_coupling p HP) as C. unfold hOpaque_of, H_ms_of. unfold s. rewrite (hWall_dot p HP). num.
  pose proof (massArea_bounds (Cm_of (pa_structure p))) as B. pose proof (h_ms_pos p HP) as PH.
  assert (E : h_ms_of p = ss_hci (pa_settings p) + 1.2 * ss_hri (pa_settings p)) by (unfold h_ms_of; num; lra).
  eapply Rlt_le_trans; [exact C|]. rewrite <- E. nra.
Qed.
Lemma hem_den_pos : 0 < 1 / hOpaque_of s - 1 / H_ms_of p.
Proof.
  pose proof hOpaque_lt_ms. pose proof (hOpaque_pos p). pose proof H_ms_pos. fold s in H0.
  assert (/ H_ms_of p < / hOpaque_of s) by (apply Rinv_lt_contravar; [apply Rmult_lt_0_compat|]; lra). lra.
Qed.
Lemma hem_fin : hem_of P = Fin (hem_of p).
Proof.
  unfold hem_of. unfold P. rewrite (hOpaque_fin p HP), (H_ms_fin p HP), !zn_fin.
  pose proof (hOpaque_pos p). pose proof H_ms_pos. pose proof hem_den_pos as D. unfold s in D.
  rewrite !div_fin by lra. rewrite sub_fin. rewrite div_fin; [reflexivity|]. num. lra.
Qed.
Lemma hem_pos : 0 < hem_of p.
Proof.
  unfold hem_of. num. pose proof hem_den_pos as D. unfold s in D. apply Rdiv_lt_0_compat; [lra|]. lra.
Qed.

Lemma push_ratios_fin r k : push_ratios S' (map_ratios Fin r) k = map_ratios Fin (push_ratios s r k).
Proof.
  unfold push_ratios. unfold S', P. rewrite (surf_fin p). fold s.
  cbn [su_nlams su_nla su_sams su_sa map_params map_structure pa_structure st_floorArea map_ratios
       ra_nlaWMovableShading ra_naturalLightRatio ra_naturalLightShadeRatioReduction ra_saWMovableShading
       ra_solarRatio ra_solarShadeRatioReduction].
  rewrite !div_fin by exact (area_ne p HP).
  repeat match goal with |- context [map Fin ?l ++ [Fin ?x]] =>
    replace (map Fin l ++ [Fin x]) with (map Fin (l ++ [x])) by (rewrite map_app; reflexivity) end.
  rewrite !at9_fin, !sub_fin. unfold map_ratios. cbn. rewrite !map_app. reflexivity.
Qed.
Lemma push_all_fin l : forall r, fold_left (push_ratios S') l (map_ratios Fin r) = map_ratios Fin (fold_left (push_ratios s) l r).
Proof. induction l as [|k l IH]; intros r; [reflexivity|]. cbn [fold_left]. rewrite push_ratios_fin. apply IH. Qed.

Lemma structure_nine_phys : structure_nine s = true.
Proof.
  unfold structure_nine, nine, s.
  rewrite (phy_wallArea9 p HP), (phy_windowArea9 p HP), (phy_wallU9 p HP), (phy_windowU9 p HP), (phy_abs9 p HP),
    (phy_sdf9 p HP), (phy_shgc9 p HP), (phy_scf9 p HP). reflexivity.
Qed.

Lemma lighting_control_fin : lighting_control (pa_building P) (pa_lighting P) =
  (Fin (fst (lighting_control (pa_building p) (pa_lighting p))), Fin (snd (lighting_control (pa_building p) (pa_lighting p)))).
Proof.
  unfold lighting_control. cbn [P map_params map_building map_lighting pa_building pa_lighting bu_lightingOccupancySensor
    li_dimmingFraction li_presenceAutoAd li_presenceAutoLux li_presenceSensorAd li_presenceSensorLux li_automaticAd
    li_automaticLux li_manualSwitchAd li_manualSwitchLux].
  rewrite !zn_fin, !lt_fin.
  destruct (nlt (bu_lightingOccupancySensor (pa_building p)) (zn 1)); destruct (nlt (li_dimmingFraction (pa_lighting p)) (zn 1)); reflexivity.
Qed.
Lemma lux_pos : 0 < snd (lighting_control (pa_building p) (pa_lighting p)).
Proof.
  unfold lighting_control.
  destruct (nlt (bu_lightingOccupancySensor (pa_building p)) (zn 1)); destruct (nlt (li_dimmingFraction (pa_lighting p)) (zn 1)); cbn [andb snd];
  first [exact (phy_lux1 p HP)|exact (phy_lux2 p HP)|exact (phy_lux3 p HP)|exact (phy_lux4 p HP)].
Qed.

Lemma initialize_fin r : exists i, initialize p r = Ok i /\ initialize P (map_ratios Fin r) = Ok (map_hinit Fin i).
Proof.
  unfold initialize at 1. fold s. rewrite structure_nine_phys. cbn [negb].
  eexists. split; [reflexivity|].
  unfold initialize. change (pa_structure P) with (map_structure Fin s). rewrite structure_nine_map, structure_nine_phys. cbn [negb].
  change (map_structure Fin s) with S'.
  f_equal. unfold map_hinit.
  cbn [hi_maxRatio hi_elightNatural hi_areaNatRatio hi_shadingUse hi_q4Pa hi_H_tris hi_Cm hi_Am hi_hwin hi_prsInterior
       hi_prsSolar hi_prmInterior hi_prmSolar hi_H_ms hi_hem hi_windImpactHz hi_windImpactSupplyRatio hi_ratios].
  pose proof (phy_tapfa p HP) as PT. pose proof (phy_irr p HP) as PI. pose proof (h_ms_pos p HP) as PM.
  unfold S', P. rewrite (Cm_fin p HP), massArea_fin, (hwin_fin p HP), (h_ms_fin p). fold P. fold S'.
  replace (st_totalAreaPerFloorArea S') with (Fin (st_totalAreaPerFloorArea s)) by reflexivity.
  rewrite (sub_fin (st_totalAreaPerFloorArea s)). rewrite (div_fin (hwin_of (pa_structure p))) by lra. rewrite sub_fin.
  rewrite !div_fin by (unfold s; lra).
  rewrite lighting_control_fin. cbn [fst snd].
  rewrite push_all_fin.
  apply hinit_eq.
  - reflexivity.
  - reflexivity.
  - exact (areaNatRatio_fin p HP).
  - unfold S', P. cbn [map_params map_structure pa_structure st_shadingFactorAtMaxUse st_irradianceForMaxShadingUse].
    rewrite div_fin by lra. reflexivity.
  - exact (q4Pa_fin p HP).
  - exact (H_tris_fin p HP).
  - reflexivity.
  - reflexivity.
  - reflexivity.
  - unfold P. cbn [map_params map_settings pa_settings ss_phiIntFraction]. rewrite zn_fin, sub_fin, mul_fin. reflexivity.
  - unfold P. cbn [map_params map_settings pa_settings ss_phiSolFraction]. rewrite zn_fin, sub_fin, mul_fin. reflexivity.
  - unfold P. cbn [map_params map_settings pa_settings ss_phiIntFraction]. rewrite zn_fin, sub_fin, mul_fin. reflexivity.
  - unfold P. cbn [map_params map_settings pa_settings ss_phiSolFraction]. rewrite zn_fin, sub_fin, mul_fin. reflexivity.
  - exact (H_ms_fin p HP).
  - exact hem_fin.
  - unfold P. cbn [map_params map_ventilation pa_ventilation ve_hzone]. rewrite lit_fin. apply max_fin.
  - unfold P. cbn [map_params map_ventilation pa_ventilation ve_fanControlFactor]. rewrite lit_fin. apply max_fin.
  - reflexivity.
Qed.
End OneBuilding2.
