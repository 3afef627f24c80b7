(** The house of [E_House]: its months, worked out. *)
From Coq Require Import Reals Lra Psatz ZArith List Bool Lia.
From Verif Require Import Base Num Xr M_Params M_Monthly M_Map L_Xr L_HourlyShape L_HourlyFin2 L_Office S_Calendar S_Schedule S_Results S_Monthly S_Physical S_MonthlySound S_MonthlyHeat S_MonthlyPlant
  L_Monthly L_Monthly2 L_Monthly3 L_Monthly4 L_Monthly5 L_MonthlyFin L_MonthlyFin2 L_MonthlyNaN L_MonthlyGain L_MonthlyNeed L_MonthlyTemp L_MonthlyVent L_MonthlyCase L_MonthlyPlant L_MonthlyPlant2
  E_SmallOffice E_Monthly E_House.
Import ListNotations.
Open Scope R_scope.

Lemma house_week : day_length (mkPopulation (zn 17) (zn 8) (zn 5) (zn 1) (zn 25) (zn 150) (zn 0)) = 9 /\ week_days (mkPopulation (zn 17) (zn 8) (zn 5) (zn 1) (zn 25) (zn 150) (zn 0)) = 5.
Proof.
  unfold day_length, week_days. cbn [po_hoursEnd po_hoursStart po_daysEnd po_daysStart]. rewrite !zn_R.
  destruct (Rlt_dec (17 - 8) 0), (Rlt_dec (5 - 1 + 1) 0); lra.
Qed.
Lemma house_UA (e : R) : envelope_UA (houseStructure e) = 90.
Proof. unfold envelope_UA, dot. cbn [houseStructure st_wallArea st_wallU st_windowArea st_windowU repeat combine map fold_right fst snd]. rewrite !zn_R. cbn. lra. Qed.
Lemma house_cap (e : R) : heat_capacity (houseStructure e) = 10000000.
Proof. unfold heat_capacity. cbn [houseStructure st_interiorHeatCapacity st_wallHeatCapacity st_floorArea]. rewrite !zn_R. lra. Qed.
Section House.
Context (x e ec dc : R).
Let p : params_t R := house x e ec dc.
Ltac fields := cbn [p house houseStructure houseCooling smallOffice lamps pa_structure pa_heating pa_cooling pa_ventilation pa_lighting pa_building pa_population pa_phys pa_terrain
  st_floorArea st_infiltrationRate st_buildingHeight ve_supplyRate ve_supplyDifference ve_heatRecoveryEfficiency ve_exhaustAirRecirculated ve_type ve_fanPower ve_fanControlFactor ve_zone_frac ve_stack_exp ve_stack_coeff ve_wind_exp ve_wind_coeff ve_dCp ve_H_ve
  ph_rhoCpAir ht_tau_H0 ht_a_H0 ht_hvacLossFactor cl_hvacLossFactor ht_hotcoldWasteFactor ht_efficiency cl_cop cl_partialLoadValue ht_eta_DH_sys ht_eta_DH_network cl_eta_DC_COP cl_eta_DC_network cl_eta_DC_COP_abs
  li_densityOcc li_densityUnocc li_dimmingFraction li_exteriorEnergy li_n_day_start li_n_day_end li_n_weeks bu_constantIllumination bu_lightingOccupancySensor bu_elecApplianceOcc bu_elecApplianceUnocc bu_gasApplianceOcc bu_gasApplianceUnocc
  po_hoursEnd po_hoursStart po_daysEnd po_daysStart po_densityOcc po_densityUnocc ht_E_pumps ht_pumpControlReduction cl_E_pumps cl_pumpControlReduction ht_frac_DH_free cl_frac_DC_free cl_eta_DC_frac_abs
  ht_hotWaterDistributionEfficiency ht_hotWaterSystemEfficiency];
  rewrite ?zn_R; cbn [nmul nopp lit R_num]; unfold Rlit.
Lemma house_sound : sound p.
Proof.
  constructor; try (fields; lra).
  - intros v I. cbn in I. repeat (destruct I as [<-|I]; [reflexivity|]). destruct I.
  - intros y I. left. change (st_windowSDF _) with (repeat (@zn R _ 1) 9) in I. apply repeat_spec in I. subst y. rewrite zn_R. apply (trunc_Z 1). lia.
  - exists 1%Z. change (bu_bem _) with (@zn R _ 1). rewrite zn_R. apply (trunc_Z 1). lia.
  - change (pa_population p) with (mkPopulation (@zn R _ 17) (zn 8) (zn 5) (zn 1) (zn 25) (zn 150) (zn 0)). rewrite (proj1 house_week). lra.
  - change (pa_population p) with (mkPopulation (@zn R _ 17) (zn 8) (zn 5) (zn 1) (zn 25) (zn 150) (zn 0)). rewrite (proj2 house_week). lra.
  - change (pa_structure p) with (houseStructure e). rewrite house_UA. fields. lra.
  - change (pa_structure p) with (houseStructure e). rewrite house_cap. lra.
Qed.
Lemma house_vent : vent_nonneg p.
Proof. constructor; fields; lra. Qed.
Lemma house_plant : plant_ok p.
Proof. constructor; fields; lra. Qed.
Lemma house_water : water_ok p.
Proof. split; fields; lra. Qed.
Lemma house_uses : 0 <= x -> 0 <= ec -> uses_nonneg p.
Proof. intros X E. constructor; try (constructor; fields; lra); fields; lra. Qed.
Lemma house_exponent : 0 < utilisation_exponent p.
Proof. unfold utilisation_exponent. change (pa_structure p) with (houseStructure e). rewrite house_UA, house_cap. fields. lra. Qed.
Lemma house_run te : exists m rows, monthlyAll (map_params Fin p) (fin_weather (steadyYear te)) = Ok m /\ simulateMonthly (map_params Fin p) (fin_weather (steadyYear te)) = Ok rows.
Proof.
  assert (G : exists rows, simulateMonthly (map_params Fin p) (fin_weather (steadyYear te)) = Ok rows).
  { apply C18_monthly_defined_l. split.
    { intros v I. cbn in I. repeat (destruct I as [<-|I]; [reflexivity|]). destruct I. }
    split. { cbn. repeat split; intros r I; repeat (destruct I as [<-|I]; [reflexivity|]); destruct I. }
    split. { intros row I. exists (zn 200). cbn in I. split; [repeat (destruct I as [<-|I]; [cbn; tauto|]); destruct I|]. rewrite !zn_fin, eqb_fin. apply Reqb_false. rewrite !zn_R. lra. }
    split. { intros y I. left. change (st_windowSDF _) with (map Fin (repeat (@zn R _ 1) 9)) in I. rewrite <- repeat_fin in I. apply repeat_spec in I. subst y. rewrite zn_R. apply (trunc_Z 1). lia. }
    exists 1%Z. change (bu_bem _) with (Fin (@zn R _ 1)). rewrite zn_R. apply (trunc_Z 1). lia. }
  destruct G as (rows & G). destruct (simulate_all _ _ _ G) as (m & M). exists m, rows. split; [exact M|exact G].
Qed.

(** *** Air *)
Lemma pow_le1 y a : 0 <= y -> 0 < a < 1 -> 0 <= Rpow y a <= 1 + y.
Proof.
  intros Y A. unfold Rpow. destruct (Rlt_dec 0 y) as [P|P]; [|destruct (Req_EM_T a 0); [lra|]; destruct (Req_EM_T y 0); lra]. split; [apply Rlt_le, Rpower_pos|].
  destruct (Rle_dec 1 y) as [Q|Q].
  - apply Rle_trans with (Rpower y 1); [apply Rle_Rpower; lra|rewrite Rpower_1; lra].
  - destruct (power_lt1 y a (proj1 A) ltac:(lra)). lra.
Qed.
Definition airFlow (te t : R) : R := ventilationCoefficient (house 0 0 0 0) (45 / 168) te 3 t.
Lemma house_air te t : ventilationCoefficient p (45 / 168) te 3 t = airFlow te t.
Proof. reflexivity. Qed.
Lemma house_air_bound te t : Rabs (te - t) <= 14 -> 0 <= airFlow te t <= 1.
Proof.
  intros D. rewrite <- house_air, coef_R. pose proof (stack_nonneg p te t) as S0. pose proof (wind_nonneg p 3 house_sound house_vent) as W0.
  assert (S1 : stackFlow p te t <= 1).
  { unfold stackFlow, stackHeight. fields. ops. rewrite ?nmax_R. pose proof (Rabs_pos (te - t)) as AP. set (h := Rmax (1 / 10) 3). assert (HH : h = 3) by (apply Rmax_right; lra).
    cbn [R_num lit nmax] in *. unfold Rlit in *. fold h. rewrite HH.
    destruct (pow_le1 (Rabs (te - t) * (7 / 10 * 3)) (667 / 1000)) as [P1 P2]; [apply Rmult_le_pos; lra|lra|]. apply Rmax_lub; [|lra].
    apply Rle_trans with ((1 + Rabs (te - t) * (7 / 10 * 3)) * (146 / 10000 * 1)); [apply Rmult_le_compat_r; lra|]. lra. }
  assert (W1 : windFlow p 3 <= 1).
  { unfold windFlow. fields. ops. destruct (pow_le1 (3 * 3 * (75 / 100 * (8 / 10))) (667 / 1000)) as [P1 P2]; [lra|lra|]. cbn [R_num lit] in *. unfold Rlit in *.
    apply Rle_trans with ((1 + 3 * 3 * (75 / 100 * (8 / 10))) * 1 * (769 / 10000)); [|lra]. apply Rmult_le_compat_r; [lra|]. lra. }
  assert (F : 0 <= flowDifference p) by (rewrite flowDiff_R; fields; lra).
  assert (I1 : 0 <= infiltration p (stackFlow p te t) (windFlow p 3) <= 1 + 14 / 100).
  { split; [apply infil_nonneg; [apply house_sound|apply house_vent]|]. unfold infiltration. set (s := stackFlow p te t) in *. set (f := windFlow p 3) in *. set (d := flowDifference p) in *.
    change (st_infiltrationRate (pa_structure p)) with (@zn R _ 1). rewrite !zn_R, sdiv_R by lra. ops. cbn [lit R_num]. unfold Rlit.
    rewrite (Rmax_left 0 (- d)) by lra. assert (Rmax s f <= 1) by (apply Rmax_lub; lra). assert (s * f <= 1 * 1) by (apply Rmult_le_compat; lra). lra. }
  assert (M1 : 0 <= mechanicalFlow p (45 / 168) <= 1).
  { unfold mechanicalFlow, ventFraction. change (ve_vent_rate_flag (pa_ventilation p)) with 1%Z. cbv iota. rewrite supply_R. change (ve_type (pa_ventilation p)) with (@zn R _ 1). rewrite !zn_R. ops. unfold neqb. cbn [R_num]. rewrite Reqb_false by lra. fields. lra. }
  set (i := infiltration _ _ _) in *. set (k := mechanicalFlow _ _) in *. change (ph_rhoCpAir (pa_phys p)) with (122521 / 100000 * (1012 / 1000000)).
  lra.
Qed.

(** *** Months *)
Definition hLoss (te t : R) : R := (t - te) * (90 + 100 * airFlow te t).
Definition hGain : R := 100 * x - 110 * e.
Lemma house_sol te r : run p (steadyYear te) r -> forall i s, nth_error (mr_Esol r) i = Some s -> (i < 12)%nat -> s = - (110) * e * month_megaseconds i.
Proof.
  intros RU i s H I. destruct (rn_sol _ _ _ RU) as (ws & W & E). rewrite E in H. unfold solarHeatGain in H.
  assert (WZ : exists c, ws = repeat (c * zn 0) 9).
  { unfold windowSolarArea in W. change (st_windowSDF (pa_structure p)) with (repeat (@zn R _ 1) 9) in W. assert (SF : @sdfFactor R _ (zn 1) = Ok (lit 5 10)) by (unfold sdfFactor; assert (Q : @ntrunc R _ 1 = Some 1%Z) by (apply (trunc_Z 1); lia); rewrite zn_R, Q; reflexivity).
    cbn [repeat omap] in W. rewrite SF in W. cbn [obind] in W. apply ok_inj in W. subst ws. eexists. cbn. reflexivity. }
  destruct WZ as (c & ->). unfold irradiance in H. change (mw_msolar (steadyYear te)) with (repeat (repeat (@zn R _ 100) 8) 12) in H. change (mw_mEgh (steadyYear te)) with (repeat (@zn R _ 90) 12) in H.
  assert (Z : forall (row : list R) n k, zipw (fun r g => r ++ [g]) (repeat row n) (repeat k n) = repeat (row ++ [k]) n) by (intros row n k; induction n; [reflexivity|cbn [repeat zipw]; now rewrite IHn]).
  rewrite Z in H. unfold vmul in H.
  assert (ZR : forall (v : R) n (f : list R), length f = n -> zipw nmul (repeat v n) f = map (fun y => v * y) f) by (intros v n f <-; clear; induction f; [reflexivity|cbn [length repeat zipw map]; now rewrite IHf]).
  assert (ZA : forall (u v : R) n, vadd (repeat u n) (repeat v n) = repeat (u + v) n) by (intros u v n; unfold vadd; induction n; [reflexivity|cbn [repeat zipw]; now rewrite IHn]).
  assert (MR : forall (f : list R -> R) y n, map f (repeat y n) = repeat (f y) n) by (intros f y n; induction n; [reflexivity|cbn [repeat map]; now rewrite IHn]).
  rewrite !MR, ZA in H. rewrite ZR in H by reflexivity. rewrite nth_error_map, (mega_nth i I) in H. cbn [option_map] in H. injection H as <-. f_equal.
  unfold windowGain, wallGain, wallSolarArea, skyRadiation, formFactors. change (pa_structure p) with (houseStructure e). rewrite !vsum_R.
  cbn [houseStructure st_windowSCF st_wallAbsorption st_R_sc_ext st_wallU st_wallArea st_wallEmissivity smallOffice pa_structure repeat vmul vsub scale zipw map app Rsum fold_right].
  rewrite !zn_R. cbn [lit R_num nmul nsub]. unfold Rlit. ring_simplify. lra.
Qed.
Lemma house_phi te r : run p (steadyYear te) r -> internalHeatGain (pa_structure p) (mr_gains r) = 100 * x.
Proof.
  intros RU. rewrite (rn_gains _ _ _ RU), (rn_lu _ _ _ RU), (rn_oc _ _ _ RU). unfold internalHeatGain, heatGainsAndLosses, lightingEnergyUse. cbn [ga_int ga_plug ga_illum lu_tot].
  set (wk := oc_wk_day _). clearbody wk. set (u := lightDayHours _ _). clearbody u. set (v := lightNightHours _ _). clearbody v. unfold hoursInYear. fields.
  cbn [bu_elecApplianceOcc po_heatGainPerPerson]. rewrite ?zn_R. cbn [nadd nsub ndiv nmul R_num]. field.
Qed.
Lemma house_months te m i : Rabs (te - 24) <= 14 -> Rabs (te - 28) <= 18 -> monthlyAll (map_params Fin p) (fin_weather (steadyYear te)) = Ok m -> (i < 12)%nat ->
  let ms := month_megaseconds i in let L := hLoss te 24 * ms in let K := hLoss te 28 * ms in let G := hGain * ms in let a := Fin (utilisation_exponent p) in
  month_data p (steadyYear te) m i 24 28 te (airFlow te 24) (airFlow te 28) (- (110) * e * ms) (100 * x) /\
  nth_error (ne_ht (mr_needs m)) i = Some (nsub (Fin L) (nmul (etaHeating a (Fin (sdiv G (L + Rdblmin)))) (Fin G))) /\
  nth_error (ne_cl (mr_needs m)) i = Some (nsub (Fin G) (nmul (etaCooling a (Fin (sdiv K (G + Rdblmin)))) (Fin K))).
Proof.
  intros D1 D2 M I ms L K G a. destruct (month_balance p (steadyYear te) m i house_sound M I) as (t & tc & te' & hve & hvc & sol & phi & MD & N1 & N2). cbv zeta in N1, N2.
  assert (BM : ntrunc (bu_bem (pa_building p)) = Some 1%Z) by (change (bu_bem _) with (@zn R _ 1); rewrite zn_R; apply (trunc_Z 1); lia).
  assert (WD : 1 <= week_days (pa_population p)) by (change (pa_population p) with (mkPopulation (@zn R _ 17) (zn 8) (zn 5) (zn 1) (zn 25) (zn 150) (zn 0)); rewrite (proj2 house_week); lra).
  assert (T24 : t = 24).
  { destruct (C32_heating_l p (steadyYear te) m 1 house_sound BM M (Fin t) (nth_error_In _ _ (md_t _ _ _ _ _ _ _ _ _ _ _ MD))) as (t' & Q & A & B & _). injection Q as <-. specialize (B WD).
    change (ht_tempOcc (pa_heating p)) with (@zn R _ 24) in *. change (ht_tempUnocc (pa_heating p)) with (@zn R _ 24) in *. rewrite zn_R in *. unfold bem_relief in *. cbn [Z.eqb Pos.eqb] in *. rewrite Rmin_left in B by lra. lra. }
  assert (T28 : tc = 28).
  { destruct (C32_cooling_l p (steadyYear te) m 1 house_sound BM M (Fin tc) (nth_error_In _ _ (md_tc _ _ _ _ _ _ _ _ _ _ _ MD))) as (t' & Q & A & B & _). injection Q as <-. specialize (B WD).
    change (cl_tempOcc (pa_cooling p)) with (@zn R _ 28) in *. change (cl_tempUnocc (pa_cooling p)) with (@zn R _ 28) in *. rewrite zn_R in *. unfold bem_relief in *. cbn [Z.eqb Pos.eqb] in *. rewrite Rmin_left in B by lra. lra. }
  subst t tc.
  assert (TE : te' = te). { pose proof (md_te _ _ _ _ _ _ _ _ _ _ _ MD) as Q. change (mw_mdbt (steadyYear te)) with (repeat te 12) in Q. apply nth_error_In, repeat_spec in Q. exact Q. }
  subst te'.
  assert (RU := monthlyAll_run _ _ _ M). destruct (run_fin _ _ _ house_sound RU) as (r & E & F).
  assert (SO : sol = - (110) * e * ms).
  { apply (house_sol te r E i); [|exact I]. pose proof (md_sol _ _ _ _ _ _ _ _ _ _ _ MD) as Q. rewrite (fr_sol _ _ F) in Q. destruct (nth_map_fin _ _ _ Q) as (y & Y & Z). injection Z as <-. exact Y. }
  assert (PH : phi = 100 * x).
  { pose proof (md_phi _ _ _ _ _ _ _ _ _ _ _ MD) as Q. rewrite (fr_gains _ _ F) in Q. change (pa_structure (map_params Fin p)) with (map_structure Fin (pa_structure p)) in Q. rewrite internal_fin in Q. injection Q as <-. exact (house_phi te r E). }
  assert (WK : oc_wk_day (mr_occ r) = 45 / 168).
  { rewrite (rn_oc _ _ _ E). pose proof (sound_occ p house_sound) as (_ & _ & O & _). cbv zeta in O. rewrite O. change (pa_population p) with (mkPopulation (@zn R _ 17) (zn 8) (zn 5) (zn 1) (zn 25) (zn 150) (zn 0)). rewrite (proj1 house_week), (proj2 house_week). lra. }
  assert (AIR : forall tt hs t h, hs = ventilationCalc p (steadyYear te) (oc_wk_day (mr_occ r)) tt -> nth_error (map Fin hs) i = Some (Fin h) -> nth_error (map Fin tt) i = Some (Fin t) -> h = airFlow te t).
  { intros tt hs t h -> Q1 Q2. destruct (nth_map_fin _ _ _ Q1) as (y & Y & Z). injection Z as <-. destruct (nth_map_fin _ _ _ Q2) as (y & Y2 & Z). injection Z as <-.
    unfold ventilationCalc in Y. change (mw_mdbt (steadyYear te)) with (repeat te 12) in Y. change (mw_mwind (steadyYear te)) with (repeat (@zn R _ 3) 12) in Y.
    assert (X1 : nth_error (repeat te 12) i = Some te) by (apply nth_error_repeat; exact I). assert (X2 : nth_error (repeat (@zn R _ 3) 12) i = Some (zn 3)) by (apply nth_error_repeat; exact I).
    rewrite (nth_zipw _ _ _ _ _ _ (nth_zipw _ _ _ _ _ _ X1 X2) Y2) in Y. injection Y as <-. rewrite WK. replace (Rlit 3 1) with 3 by (unfold Rlit; lra). apply house_air. }
  assert (A1 : hve = airFlow te 24).
  { apply (AIR (te_h (mr_temps r)) (mr_Hve_ht r)); [exact (rn_Hve_ht _ _ _ E)| |].
    - rewrite <- (fr_Hve_ht _ _ F). apply (md_hve _ _ _ _ _ _ _ _ _ _ _ MD).
    - pose proof (md_t _ _ _ _ _ _ _ _ _ _ _ MD) as Q. rewrite (fr_temps _ _ F) in Q. exact Q. }
  assert (A2 : hvc = airFlow te 28).
  { apply (AIR (te_c (mr_temps r)) (mr_Hve_cl r)); [exact (rn_Hve_cl _ _ _ E)| |].
    - rewrite <- (fr_Hve_cl _ _ F). apply (md_hvc _ _ _ _ _ _ _ _ _ _ _ MD).
    - pose proof (md_tc _ _ _ _ _ _ _ _ _ _ _ MD) as Q. rewrite (fr_temps _ _ F) in Q. exact Q. }
  subst hve hvc sol phi. split; [exact MD|].
  change (pa_structure p) with (houseStructure e) in N1, N2. rewrite house_UA in N1, N2. change (st_floorArea (houseStructure e)) with (@zn R _ 100) in N1, N2. rewrite zn_R in N1, N2.
  assert (EL : month_loss 90 100 (airFlow te 24) 24 te i = L) by (unfold month_loss, L, hLoss; reflexivity).
  assert (EK : month_loss 90 100 (airFlow te 28) 28 te i = K) by (unfold month_loss, K, hLoss; reflexivity).
  assert (EG : month_gain (100 * x) (- (110) * e * ms) i = G) by (unfold month_gain, G, hGain, ms; ring).
  rewrite EL, EG in N1. rewrite EK, EG in N2. split; [exact N1|exact N2].
Qed.
End House.
