(** The hot house of [L_MonthlyHouse2], twice as large. *)
From Coq Require Import Reals Lra Psatz ZArith List Bool Lia.
From Verif Require Import Base Num Xr M_Params M_Monthly M_Map L_Xr L_HourlyShape L_HourlyFin2 L_Office S_Calendar S_Schedule S_Results S_Monthly S_Physical S_MonthlySound S_MonthlyHeat S_MonthlyPlant S_Symmetry
  L_Monthly L_Monthly2 L_Monthly3 L_Monthly4 L_Monthly5 L_MonthlyFin L_MonthlyFin2 L_MonthlyNaN L_MonthlyGain L_MonthlyNeed L_MonthlyTemp L_MonthlyVent L_MonthlyCase L_MonthlyPlant L_MonthlyPlant2
  E_SmallOffice E_Monthly E_House L_MonthlyHouse L_MonthlyHouse2 L_SizedMonthly.
Import ListNotations.
Open Scope R_scope.

Definition twice : params_t R := sized 2 (house 0 0 0 0).
Lemma twice_UA : envelope_UA (pa_structure twice) = 180.
Proof. unfold envelope_UA, dot. cbn [twice sized pa_structure house houseStructure st_wallArea st_wallU st_windowArea st_windowU repeat combine map fold_right fst snd]. rewrite !zn_R. cbn. lra. Qed.
Lemma twice_cap : heat_capacity (pa_structure twice) = 20000000.
Proof. unfold heat_capacity. cbn [twice sized house houseStructure pa_structure st_interiorHeatCapacity st_wallHeatCapacity st_floorArea]. rewrite !zn_R. lra. Qed.
Ltac tfields := cbn [twice sized house houseStructure houseCooling smallOffice lamps pa_structure pa_heating pa_cooling pa_ventilation pa_lighting pa_building pa_population pa_phys pa_terrain
  st_floorArea st_infiltrationRate st_buildingHeight ve_supplyRate ve_supplyDifference ve_heatRecoveryEfficiency ve_exhaustAirRecirculated ve_type ve_fanPower ve_fanControlFactor ve_zone_frac ve_stack_exp ve_stack_coeff ve_wind_exp ve_wind_coeff ve_dCp ve_H_ve
  ph_rhoCpAir ht_tau_H0 ht_a_H0 ht_hvacLossFactor cl_hvacLossFactor ht_hotcoldWasteFactor ht_efficiency cl_cop cl_partialLoadValue ht_eta_DH_sys ht_eta_DH_network cl_eta_DC_COP cl_eta_DC_network cl_eta_DC_COP_abs
  li_densityOcc li_densityUnocc li_dimmingFraction li_exteriorEnergy li_n_day_start li_n_day_end li_n_weeks bu_constantIllumination bu_lightingOccupancySensor bu_elecApplianceOcc bu_elecApplianceUnocc bu_gasApplianceOcc bu_gasApplianceUnocc
  po_hoursEnd po_hoursStart po_daysEnd po_daysStart po_densityOcc po_densityUnocc ht_E_pumps ht_pumpControlReduction cl_E_pumps cl_pumpControlReduction ht_frac_DH_free cl_frac_DC_free cl_eta_DC_frac_abs
  ht_hotWaterDistributionEfficiency ht_hotWaterSystemEfficiency];
  rewrite ?zn_R; cbn [nmul nopp lit R_num]; unfold Rlit.
Lemma twice_sound : sound twice.
Proof.
  constructor; try (tfields; lra).
  - intros v I. cbn in I. repeat (destruct I as [<-|I]; [reflexivity|]). destruct I.
  - intros y I. left. change (st_windowSDF _) with (repeat (@zn R _ 1) 9) in I. apply repeat_spec in I. subst y. rewrite zn_R. apply (trunc_Z 1). lia.
  - exists 1%Z. change (bu_bem _) with (@zn R _ 1). rewrite zn_R. apply (trunc_Z 1). lia.
  - change (pa_population twice) with (mkPopulation (@zn R _ 17) (zn 8) (zn 5) (zn 1) (zn 25) (zn 150) (zn 0)). rewrite (proj1 house_week). lra.
  - change (pa_population twice) with (mkPopulation (@zn R _ 17) (zn 8) (zn 5) (zn 1) (zn 25) (zn 150) (zn 0)). rewrite (proj2 house_week). lra.
  - rewrite twice_UA. tfields. lra.
  - rewrite twice_cap. lra.
Qed.
Lemma twice_plant : plant_ok twice.
Proof. constructor; tfields; lra. Qed.
Lemma twice_supply : supplyPerArea twice = supplyPerArea (house 0 0 0 0).
Proof. rewrite !supply_R. tfields. field. Qed.
Lemma twice_difference : flowDifference twice = flowDifference (house 0 0 0 0).
Proof. rewrite !flowDiff_R. tfields. field. Qed.
Lemma twice_air t : ventilationCoefficient twice (45 / 168) 28 3 t = airFlow 28 t.
Proof.
  unfold airFlow, ventilationCoefficient, infiltration, mechanicalFlow. rewrite twice_supply, twice_difference. reflexivity.
Qed.
Lemma twice_sol r : run twice (steadyYear 28) r -> forall i s, nth_error (mr_Esol r) i = Some s -> (i < 12)%nat -> s = 0.
Proof.
  intros RU i s H I. destruct (rn_sol _ _ _ RU) as (ws & W & E). rewrite E in H. unfold solarHeatGain in H.
  assert (WZ : exists c, ws = repeat (c * (2 * zn 0)) 9).
  { unfold windowSolarArea in W. change (st_windowSDF (pa_structure twice)) with (repeat (@zn R _ 1) 9) in W. assert (SF : @sdfFactor R _ (zn 1) = Ok (lit 5 10)) by (unfold sdfFactor; assert (Q : @ntrunc R _ 1 = Some 1%Z) by (apply (trunc_Z 1); lia); rewrite zn_R, Q; reflexivity).
    cbn [repeat omap] in W. rewrite SF in W. cbn [obind] in W. apply ok_inj in W. subst ws. eexists. cbn. reflexivity. }
  destruct WZ as (c & ->). unfold irradiance in H. change (mw_msolar (steadyYear 28)) with (repeat (repeat (@zn R _ 100) 8) 12) in H. change (mw_mEgh (steadyYear 28)) with (repeat (@zn R _ 90) 12) in H.
  assert (Z : forall (row : list R) n k, zipw (fun r g => r ++ [g]) (repeat row n) (repeat k n) = repeat (row ++ [k]) n) by (intros row n k; induction n; [reflexivity|cbn [repeat zipw]; now rewrite IHn]).
  rewrite Z in H. unfold vmul in H.
  assert (ZR : forall (v : R) n (f : list R), length f = n -> zipw nmul (repeat v n) f = map (fun y => v * y) f) by (intros v n f <-; clear; induction f; [reflexivity|cbn [length repeat zipw map]; now rewrite IHf]).
  assert (ZA : forall (u v : R) n, vadd (repeat u n) (repeat v n) = repeat (u + v) n) by (intros u v n; unfold vadd; induction n; [reflexivity|cbn [repeat zipw]; now rewrite IHn]).
  assert (MR : forall (f : list R -> R) y n, map f (repeat y n) = repeat (f y) n) by (intros f y n; induction n; [reflexivity|cbn [repeat map]; now rewrite IHn]).
  rewrite !MR, ZA in H. rewrite ZR in H by reflexivity. rewrite nth_error_map, (mega_nth i I) in H. cbn [option_map] in H. injection H as <-.
  match goal with |- ?a * _ = 0 => assert (A0 : a = 0); [|rewrite A0; ring] end.
  unfold windowGain, wallGain, wallSolarArea, skyRadiation, formFactors. rewrite !vsum_R.
  cbn [twice sized house houseStructure st_windowSCF st_wallAbsorption st_R_sc_ext st_wallU st_wallArea st_wallEmissivity smallOffice pa_structure repeat vmul vsub scale zipw map app Rsum fold_right].
  rewrite !zn_R. cbn [lit R_num nmul nsub]. unfold Rlit. ring_simplify. lra.
Qed.
Lemma twice_phi r : run twice (steadyYear 28) r -> internalHeatGain (pa_structure twice) (mr_gains r) = 0.
Proof.
  intros RU. rewrite (rn_gains _ _ _ RU), (rn_lu _ _ _ RU), (rn_oc _ _ _ RU). unfold internalHeatGain, heatGainsAndLosses, lightingEnergyUse. cbn [ga_int ga_plug ga_illum lu_tot].
  set (wk := oc_wk_day _). clearbody wk. set (u := lightDayHours _ _). clearbody u. set (v := lightNightHours _ _). clearbody v. unfold hoursInYear. tfields.
  cbn [bu_elecApplianceOcc po_heatGainPerPerson]. rewrite ?zn_R. cbn [nadd nsub ndiv nmul R_num]. field.
Qed.
Lemma twice_months m i : monthlyAll (map_params Fin twice) (fin_weather (steadyYear 28)) = Ok m -> (i < 12)%nat ->
  nth_error (ne_ht (mr_needs m)) i = Some (Fin (2 * hotLoss i)) /\ nth_error (ne_cl (mr_needs m)) i = Some (Fin 0).
Proof.
  intros M I. destruct (month_balance twice (steadyYear 28) m i twice_sound M I) as (t & tc & te' & hve & hvc & sol & phi & MD & N1 & N2). cbv zeta in N1, N2.
  assert (BM : ntrunc (bu_bem (pa_building twice)) = Some 1%Z) by (change (bu_bem _) with (@zn R _ 1); rewrite zn_R; apply (trunc_Z 1); lia).
  assert (WD : 1 <= week_days (pa_population twice)) by (change (pa_population twice) with (mkPopulation (@zn R _ 17) (zn 8) (zn 5) (zn 1) (zn 25) (zn 150) (zn 0)); rewrite (proj2 house_week); lra).
  assert (T24 : t = 24).
  { destruct (C32_heating_l twice (steadyYear 28) m 1 twice_sound BM M (Fin t) (nth_error_In _ _ (md_t _ _ _ _ _ _ _ _ _ _ _ MD))) as (t' & Q & A & B & _). injection Q as <-. specialize (B WD).
    change (ht_tempOcc (pa_heating twice)) with (@zn R _ 24) in *. change (ht_tempUnocc (pa_heating twice)) with (@zn R _ 24) in *. rewrite zn_R in *. unfold bem_relief in *. cbn [Z.eqb Pos.eqb] in *. rewrite Rmin_left in B by lra. lra. }
  assert (T28 : tc = 28).
  { destruct (C32_cooling_l twice (steadyYear 28) m 1 twice_sound BM M (Fin tc) (nth_error_In _ _ (md_tc _ _ _ _ _ _ _ _ _ _ _ MD))) as (t' & Q & A & B & _). injection Q as <-. specialize (B WD).
    change (cl_tempOcc (pa_cooling twice)) with (@zn R _ 28) in *. change (cl_tempUnocc (pa_cooling twice)) with (@zn R _ 28) in *. rewrite zn_R in *. unfold bem_relief in *. cbn [Z.eqb Pos.eqb] in *. rewrite Rmin_left in B by lra. lra. }
  subst t tc.
  assert (TE : te' = 28). { pose proof (md_te _ _ _ _ _ _ _ _ _ _ _ MD) as Q. change (mw_mdbt (steadyYear 28)) with (repeat 28 12) in Q. apply nth_error_In, repeat_spec in Q. exact Q. }
  subst te'.
  assert (RU := monthlyAll_run _ _ _ M). destruct (run_fin _ _ _ twice_sound RU) as (r & E & F).
  assert (SO : sol = 0).
  { apply (twice_sol r E i); [|exact I]. pose proof (md_sol _ _ _ _ _ _ _ _ _ _ _ MD) as Q. rewrite (fr_sol _ _ F) in Q. destruct (nth_map_fin _ _ _ Q) as (y & Y & Z). injection Z as <-. exact Y. }
  assert (PH : phi = 0).
  { pose proof (md_phi _ _ _ _ _ _ _ _ _ _ _ MD) as Q. rewrite (fr_gains _ _ F) in Q. change (pa_structure (map_params Fin twice)) with (map_structure Fin (pa_structure twice)) in Q. rewrite internal_fin in Q. injection Q as <-. exact (twice_phi r E). }
  assert (WK : oc_wk_day (mr_occ r) = 45 / 168).
  { rewrite (rn_oc _ _ _ E). pose proof (sound_occ twice twice_sound) as (_ & _ & O & _). cbv zeta in O. rewrite O. change (pa_population twice) with (mkPopulation (@zn R _ 17) (zn 8) (zn 5) (zn 1) (zn 25) (zn 150) (zn 0)). rewrite (proj1 house_week), (proj2 house_week). lra. }
  assert (AIR : forall tt hs t h, hs = ventilationCalc twice (steadyYear 28) (oc_wk_day (mr_occ r)) tt -> nth_error (map Fin hs) i = Some (Fin h) -> nth_error (map Fin tt) i = Some (Fin t) -> h = airFlow 28 t).
  { intros tt hs t h -> Q1 Q2. destruct (nth_map_fin _ _ _ Q1) as (y & Y & Z). injection Z as <-. destruct (nth_map_fin _ _ _ Q2) as (y & Y2 & Z). injection Z as <-.
    unfold ventilationCalc in Y. change (mw_mdbt (steadyYear 28)) with (repeat 28 12) in Y. change (mw_mwind (steadyYear 28)) with (repeat (@zn R _ 3) 12) in Y.
    assert (X1 : nth_error (repeat 28 12) i = Some 28) by (apply nth_error_repeat; exact I). assert (X2 : nth_error (repeat (@zn R _ 3) 12) i = Some (zn 3)) by (apply nth_error_repeat; exact I).
    rewrite (nth_zipw _ _ _ _ _ _ (nth_zipw _ _ _ _ _ _ X1 X2) Y2) in Y. injection Y as <-. rewrite WK. replace (Rlit 3 1) with 3 by (unfold Rlit; lra). apply twice_air. }
  assert (A1 : hve = airFlow 28 24).
  { apply (AIR (te_h (mr_temps r)) (mr_Hve_ht r)); [exact (rn_Hve_ht _ _ _ E)| |].
    - rewrite <- (fr_Hve_ht _ _ F). apply (md_hve _ _ _ _ _ _ _ _ _ _ _ MD).
    - pose proof (md_t _ _ _ _ _ _ _ _ _ _ _ MD) as Q. rewrite (fr_temps _ _ F) in Q. exact Q. }
  subst hve sol phi. rewrite twice_UA in N1, N2. assert (FA : st_floorArea (pa_structure twice) = 200) by (tfields; lra). rewrite FA in N1, N2.
  pose proof (hotLoss_neg i I) as HN. pose proof dblmin_small as DS. pose proof Rdblmin_pos as DP.
  assert (EL : month_loss 180 200 (airFlow 28 24) 24 28 i = 2 * hotLoss i) by (unfold month_loss, hotLoss, hLoss; ring).
  assert (EK : month_loss 180 200 hvc 28 28 i = 0) by (unfold month_loss; ring).
  assert (EG : month_gain 0 0 i = 0) by (unfold month_gain; ring).
  rewrite EL, EG in N1. rewrite EK, EG in N2. split.
  - rewrite N1. f_equal. rewrite sdiv_R by lra. replace (0 / (2 * hotLoss i + Rdblmin)) with 0 by (field; lra). rewrite etaH_neg by lra. rewrite mul_fin, sub_fin. f_equal. ops. ring.
  - rewrite N2. f_equal. rewrite sdiv_R by lra. replace (0 / (0 + Rdblmin)) with 0 by (field; lra). rewrite etaC_neg by lra. rewrite mul_fin, sub_fin. f_equal. ops. ring.
Qed.
Lemma dblmax_large : 1000000000 < Rdblmax.
Proof.
  with_strategy transparent [Rdblmax] unfold Rdblmax. assert (H : 2 ^ 30 <= 2 ^ 1023) by (apply Rle_pow; [lra|lia]). assert (K : 2 ^ 30 = 1073741824) by (cbn; lra).
  assert (H2 : 1 <= 2 ^ 52) by (apply pow_R1_Rle; lra). assert (H3 : / 2 ^ 52 <= 1). { rewrite <- Rinv_1. apply Rinv_le_contravar; lra. }
  apply Rlt_le_trans with (1 * 2 ^ 1023); [lra|]. apply Rmult_le_compat_r; lra.
Qed.
Definition twiceLoss (i : nat) : R := 2 * hotLoss i.
Lemma twice_house : exists m rows, monthlyAll (map_params Fin twice) (fin_weather (steadyYear 28)) = Ok m /\ simulateMonthly (map_params Fin twice) (fin_weather (steadyYear 28)) = Ok rows /\
  ne_ht (mr_needs m) = map Fin (map twiceLoss (seq 0 12)) /\ ne_cl (mr_needs m) = map Fin (map (fun _ => 0) (seq 0 12)).
Proof.
  destruct (hot_house 0) as (_ & r0 & _ & S0 & _).
  destruct (proj1 (C83_defined_l 2 (house 0 0 0 0) (fin_weather (steadyYear 28))) (ex_intro _ r0 S0)) as (rows & SM). fold twice in SM.
  destruct (simulate_all _ _ _ SM) as (m & M). exists m, rows. split; [exact M|]. split; [exact SM|].
  pose proof (monthlyAll_run _ _ _ M) as RU. destruct (run_lengths _ _ _ RU) as (_ & _ & L1 & L2 & _).
  split; apply months_eq; try assumption; intros i I; apply (twice_months m i M I).
Qed.
Lemma twice_sum : Rsum (map twiceLoss (seq 0 12)) < 0 /\ Rsum (map (fun _ : nat => 0) (seq 0 12)) = 0.
Proof.
  destruct hot_sum as [A B]. split; [|exact B]. assert (E : Rsum (map twiceLoss (seq 0 12)) = 2 * Rsum (map hotLoss (seq 0 12))) by (rewrite !sum12; unfold twiceLoss; ring). lra.
Qed.
(** Pumps of a building with cooling pumps of no power and no cooling need. *)
Lemma idle_pumps p w m rows f : plant_ok p -> monthlyAll (map_params Fin p) w = Ok m -> simulateMonthly (map_params Fin p) w = Ok rows ->
  ne_ht (mr_needs m) = map Fin (map f (seq 0 12)) -> ne_cl (mr_needs m) = map Fin (map (fun _ => 0) (seq 0 12)) ->
  (forall i, (i < 12)%nat -> f i < 0) -> cl_E_pumps (pa_cooling p) = 0 -> forall row, In row rows ->
  nth_error row elec_pumps = Some (Fin (kWh_m2 p (pumpQ p (ht_E_pumps (pa_heating p)) (ht_pumpControlReduction (pa_heating p)) / 12 + Rdblmax))).
Proof.
  intros PO M SM H C F CE.
  assert (S1 : Rsum (map f (seq 0 12)) < 0). { pose proof (sum12_pos (fun i => - f i)) as P. assert (0 < Rsum (map (fun i => - f i) (seq 0 12))) by (apply P; intros i I; pose proof (F i I); lra). rewrite sum12 in *. lra. }
  destruct twice_sum as [_ S2].
  destruct (pump_column p _ m rows _ _ (pl_area _ PO) M SM H C) as (P & _ & _).
  set (qh := map f (seq 0 12)) in *. set (qc := map (fun _ : nat => 0) (seq 0 12)) in *.
  destruct (pump_R p qh qc eq_refl ltac:(lra)) as [_ Q]. cbv zeta in Q.
  assert (QC : pumpQ p (cl_E_pumps (pa_cooling p)) (cl_pumpControlReduction (pa_cooling p)) = 0) by (unfold pumpQ; rewrite CE; ring).
  rewrite Q in P by (right; exact QC). rewrite QC in P. set (Qh := pumpQ p (ht_E_pumps _) _) in *.
  assert (V : vadd qh qc = qh) by (unfold vadd, qh, qc; cbn [map seq zipw]; ops; rewrite !Rplus_0_r; reflexivity). rewrite V in P.
  assert (NZ : forall q, In q qh -> q <> 0) by (intros q J; apply in_map_iff in J; destruct J as (i & <- & J); apply in_seq in J; pose proof (F i ltac:(lia)); lra).
  assert (E1 : vdiv qh qh = map (fun _ => 1) qh). { clear - NZ. unfold vdiv. induction qh as [|a l IH]; [reflexivity|]. cbn [zipw map]. rewrite IH by (intros; apply NZ; now right). rewrite sdiv_R by (apply NZ; now left). f_equal. field. apply NZ. now left. }
  assert (E2 : vdiv qc qh = map (fun _ => 0) qh).
  { assert (L : qc = map (fun _ => 0) qh) by reflexivity. rewrite L. clear - NZ. unfold vdiv. induction qh as [|a l IH]; [reflexivity|]. cbn [zipw map]. rewrite IH by (intros; apply NZ; now right). rewrite sdiv_R by (apply NZ; now left). f_equal. field. apply NZ. now left. }
  rewrite E1, E2 in P.
  assert (Z0 : Rsum (map (fun _ : R => 0) qh) = 0) by (unfold qh; rewrite map_map; rewrite sum12; lra).
  assert (Z1 : Rsum (map (fun _ : R => 1) qh) = 12) by (unfold qh; rewrite map_map; rewrite sum12; lra).
  rewrite Z0, Z1 in P.
  intros row I. destruct (series_in _ _ _ P row I) as (y & Y & J). rewrite Y. rewrite map_map in J. apply in_map_iff in J. destruct J as (q & <- & J). do 2 f_equal.
  apply in_vadd in J. destruct J as (a & b & Ja & Jb & ->). unfold divs, scale in Ja, Jb. rewrite !map_map in Ja, Jb. apply in_map_iff in Ja. destruct Ja as (u & <- & _). apply in_map_iff in Jb. destruct Jb as (v & <- & _).
  assert (SM0 : @sdiv R _ (nmul 0 0) 0 = Rdblmax) by (unfold sdiv; rewrite zn_R; change (@neqb R _ 0 0) with (Reqb 0 0); rewrite (Reqb_true 0 0 eq_refl); reflexivity). rewrite SM0, sdiv_R by lra.
  f_equal. ops. field.
Qed.
Lemma C83_monthly_refuted_l : exists c (p : params_t R) w rows rows', 0 < c /\ sound p /\ plant_ok p /\
  simulateMonthly (map_params Fin p) w = Ok rows /\ simulateMonthly (map_params Fin (sized c p)) w = Ok rows' /\
  forall row row', In row rows -> In row' rows' ->
    exists x x', nth_error row elec_pumps = Some (Fin x) /\ nth_error row' elec_pumps = Some (Fin x') /\ x' < x.
Proof.
  destruct (hot_house 0) as (m & rows & M & SM & H & C). destruct twice_house as (m' & rows' & M' & SM' & H' & C').
  exists 2, (house 0 0 0 0), (fin_weather (steadyYear 28)), rows, rows'. split; [lra|]. split; [apply house_sound|]. split; [apply house_plant|]. split; [exact SM|]. split; [exact SM'|].
  intros row row' I I'.
  pose proof (idle_pumps _ _ _ _ _ (house_plant 0 0 0 0) M SM H C ltac:(intros i J; pose proof (hotLoss_neg i J); lra) eq_refl row I) as X.
  pose proof (idle_pumps _ _ _ _ _ twice_plant M' SM' H' C' ltac:(intros i J; pose proof (hotLoss_neg i J); unfold twiceLoss; lra) eq_refl row' I') as X'.
  do 2 eexists. split; [exact X|]. split; [exact X'|].
  assert (FA : st_floorArea (pa_structure twice) = 200) by (tfields; lra). assert (FB : st_floorArea (pa_structure (@house R _ 0 0 0 0)) = 100) by (tfields; lra).
  unfold kWh_m2, pumpQ. rewrite FA, FB. change (ht_E_pumps (pa_heating twice)) with (25 / 100). change (ht_pumpControlReduction (pa_heating twice)) with (@zn R _ 1).
  change (ht_E_pumps (pa_heating (house 0 0 0 0))) with (25 / 100). change (ht_pumpControlReduction (pa_heating (house 0 0 0 0))) with (@zn R _ 1). rewrite !zn_R.
  pose proof kWh_pos as KP. unfold Rdiv at 1 3. apply Rmult_lt_compat_r; [apply Rinv_0_lt_compat, KP|]. pose proof dblmax_large. lra.
Qed.
