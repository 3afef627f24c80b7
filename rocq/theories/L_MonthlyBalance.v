(** Gains, air flows, appliances and fans of the monthly engine equal their specification. *)
From Coq Require Import Reals Lra Psatz ZArith List Bool Lia.
From Verif Require Import Base Num Xr M_Params M_Hourly M_Monthly M_Map L_Xr L_HourlyShape L_HourlyFin2 S_Calendar S_Schedule S_Results S_Monthly
  S_MonthlySound S_MonthlyHeat S_MonthlyPlant S_Physical S_MonthlyBalance L_Monthly L_Monthly2 L_Monthly3 L_Monthly4 L_Monthly5 L_Monthly6 L_MonthlyFin L_MonthlyFin2 L_MonthlyVent L_MonthlyNeed L_MonthlyPlant L_MonthlyPlant2.
Import ListNotations.
Open Scope R_scope.

Lemma nth_zip {A B C} (f : A -> B -> C) d1 d2 d : forall a b k, (k < length a)%nat -> (k < length b)%nat -> nth k (zipw f a b) d = f (nth k a d1) (nth k b d2).
Proof. induction a as [|x a IH]; intros [|y b] [|k] P Q; cbn in *; try lia; [reflexivity|]. apply IH; lia. Qed.
Lemma sum_nth l n : length l = n -> Rsum l = Rsum (map (fun k => nth k l 0) (seq 0 n)).
Proof.
  revert n. induction l as [|x l IH]; intros n <-; [reflexivity|]. cbn [length seq map]. change (x + Rsum l = x + Rsum (map (fun k => nth k (x :: l) 0) (seq 1 (length l)))). f_equal.
  rewrite <- seq_shift, map_map. now apply IH.
Qed.
Lemma sum_map_add {A} (f g : A -> R) l : Rsum (map f l) + Rsum (map g l) = Rsum (map (fun k => f k + g k) l).
Proof. induction l as [|x l IH]; [unfold Rsum; cbn; lra|]. change (f x + Rsum (map f l) + (g x + Rsum (map g l)) = f x + g x + Rsum (map (fun k => f k + g k) l)). rewrite <- IH. ring. Qed.
Lemma Rsum_ext {A} (f g : A -> R) l : (forall x, In x l -> f x = g x) -> Rsum (map f l) = Rsum (map g l).
Proof. intros H. f_equal. now apply map_ext_in. Qed.
Lemma nth_rep {A} (x d : A) n k : (k < n)%nat -> nth k (repeat x n) d = x.
Proof. revert k. induction n as [|n IH]; intros [|k] H; cbn; try lia; [reflexivity|]. apply IH. lia. Qed.

(** *** Shading *)
Lemma Rtoint_bounds x z : Rtoint x = Some z -> (0 < z)%Z -> IZR z <= x < IZR z + 1.
Proof.
  unfold Rtoint. destruct (_ && _)%bool; intros H P; [|discriminate H]. injection H as H. unfold Rtrunc in H. destruct (Rlt_dec x 0) as [N|N].
  - exfalso. pose proof (base_Int_part (- x)) as [A _]. assert (IZR (Int_part (- x)) < 0) by (rewrite <- (Z.opp_involutive (Int_part (- x))), H, opp_IZR; apply Ropp_lt_gt_0_contravar, (IZR_lt 0); lia).
    pose proof (base_Int_part (- x)) as [_ B]. assert (- x > 0) by lra. assert (IZR (Int_part (- x)) > -1) by lra.
    assert (Int_part (- x) < 0)%Z by (apply lt_IZR; assumption). assert (-1 < Int_part (- x))%Z by (apply lt_IZR; assumption). lia.
  - subst z. pose proof (base_Int_part x). lra.
Qed.
Lemma sdf_share (x : R) : ntrunc x = Some 1%Z \/ ntrunc x = Some 2%Z \/ ntrunc x = Some 3%Z -> sdfFactor x = Ok (shading_share x).
Proof.
  unfold sdfFactor, shading_share. intros [H | [H | H]]; rewrite H; cbn [ntrunc R_num] in H; apply Rtoint_bounds in H; try lia; f_equal.
  - destruct (Rlt_dec x 2); [|lra]. cbn [lit R_num]. unfold Rlit. lra.
  - destruct (Rlt_dec x 2); [lra|]. destruct (Rlt_dec x 3); [|lra]. cbn [lit R_num]. unfold Rlit. lra.
  - destruct (Rlt_dec x 2); [lra|]. destruct (Rlt_dec x 3); [lra|]. apply zn_R.
Qed.
Lemma omap_map {A B} (f : A -> outcome B) g l : (forall x, In x l -> f x = Ok (g x)) -> omap f l = Ok (map g l).
Proof. induction l as [|x l IH]; intros H; [reflexivity|]. cbn [omap map]. rewrite H by now left. cbn [obind]. rewrite IH; [reflexivity|]. intros y I. apply H. now right. Qed.
Lemma window_area (s : structure_t R) ws k : nine_surfaces s -> shading_coded s -> windowSolarArea s = Ok ws -> (k < 9)%nat ->
  length ws = 9%nat /\ nth k ws 0 = shading_share (nth k (st_windowSDF s) 0) * (nth k (st_windowSHGC s) 0 * st_win_F_W s) * (1 - st_win_ff s) * nth k (st_windowArea s) 0.
Proof.
  intros NI SC. unfold windowSolarArea. rewrite (omap_map _ shading_share) by (intros x I; apply sdf_share, SC, I). cbn [obind]. intros H K. apply ok_inj in H. rewrite <- H. clear H ws.
  assert (L1 : length (st_windowSDF s) = 9%nat) by (apply NI; cbn; tauto). assert (L2 : length (st_windowSHGC s) = 9%nat) by (apply NI; cbn; tauto). assert (L3 : length (st_windowArea s) = 9%nat) by (apply NI; cbn; tauto).
  unfold vmul, scale. split; [rewrite !zipw_length, !map_length, !repeat_length, L1, L2, L3; reflexivity|].
  rewrite !(nth_zip _ 0 0) by (rewrite ?zipw_length, ?map_length, ?repeat_length, ?L1, ?L2, ?L3; cbn; lia). rewrite !nth_rep by exact K.
  rewrite (nth_indep _ 0 (shading_share 0)) by (rewrite map_length, L1; exact K). rewrite map_nth. rewrite !zn_R.
  rewrite (nth_indep (map _ (st_windowSHGC s)) 0 (0 * st_win_F_W s)) by (rewrite map_length, L2; exact K). rewrite (map_nth (fun x => x * st_win_F_W s)). ops. ring.
Qed.

(** *** Solar energy *)
Lemma solar_month (s : structure_t R) w ws i : nine_surfaces s -> shading_coded s -> full_tables w -> windowSolarArea s = Ok ws -> (i < 12)%nat ->
  nth_error (solarHeatGain s ws w) i = Some (solar_gain s w i).
Proof.
  intros NI SC FT W I. destruct FT as ((S1 & S2) & _ & _ & F & _).
  destruct (nth_some _ i _ S1 I) as [row ROW]. destruct (nth_some _ i _ F I) as [egh EGH]. pose proof (S2 _ (nth_error_In _ _ ROW)) as LR.
  assert (IR : nth_error (irradiance w) i = Some (row ++ [egh])) by exact (nth_zipw (fun row egh => row ++ [egh]) _ _ _ _ _ ROW EGH).
  unfold solarHeatGain, vmul at 1. rewrite (nth_zipw _ _ _ _ (windowGain s ws (row ++ [egh]) + wallGain s (row ++ [egh])) (month_megaseconds i)); [|unfold vadd; apply nth_zipw; now rewrite nth_error_map, IR|now apply mega_nth].
  f_equal. ops. unfold solar_gain. rewrite Rmult_comm. f_equal. unfold windowGain, wallGain. rewrite !vsum_R.
  assert (L1 : length (st_windowSCF s) = 9%nat) by (apply NI; cbn; tauto). assert (L2 : length (st_wallArea s) = 9%nat) by (apply NI; cbn; tauto). assert (L3 : length (st_wallU s) = 9%nat) by (apply NI; cbn; tauto).
  assert (L4 : length (st_wallEmissivity s) = 9%nat) by (apply NI; cbn; tauto). assert (L5 : length (st_wallAbsorption s) = 9%nat) by (apply NI; cbn; tauto).
  assert (LI : length (row ++ [egh]) = 9%nat) by (rewrite app_length, LR; reflexivity). assert (LW : length ws = 9%nat) by (exact (proj1 (window_area s ws 0 NI SC W ltac:(lia)))).
  assert (LF : length (@formFactors R _) = 9%nat) by reflexivity.
  assert (LK : length (skyRadiation s) = 9%nat) by (unfold skyRadiation, vmul, scale; rewrite !zipw_length, map_length, !repeat_length, L2, L3, L4; reflexivity).
  assert (LA : length (wallSolarArea s) = 9%nat) by (unfold wallSolarArea, vmul; rewrite !zipw_length, !repeat_length, L2, L3, L5; reflexivity).
  rewrite (sum_nth _ 9) by (unfold vmul; rewrite !zipw_length, repeat_length, L1, LI, LW; reflexivity).
  rewrite (sum_nth (vsub _ _) 9) by (unfold vmul, vsub; rewrite !zipw_length, LI, LK, LA, LF; reflexivity).
  rewrite sum_map_add. apply Rsum_ext. intros k K. apply in_seq in K. assert (K9 : (k < 9)%nat) by lia.
  assert (RA : nth k (row ++ [egh]) 0 = radiation w i k).
  { unfold radiation. rewrite (nth_error_nth _ _ [] ROW), (nth_error_nth _ _ 0 EGH). destruct (Nat.ltb_spec k 8) as [Q|Q]; [apply app_nth1; lia|]. rewrite app_nth2 by lia. rewrite LR. replace (k - 8)%nat with 0%nat by lia. reflexivity. }
  assert (SV : nth k (@formFactors R _) 0 = sky_view k).
  { unfold formFactors, sky_view. destruct (Nat.ltb_spec k 8) as [Q|Q]; [rewrite app_nth1 by (rewrite repeat_length; lia); rewrite nth_rep by lia; cbn [lit R_num]; unfold Rlit; lra|].
    rewrite app_nth2 by (rewrite repeat_length; lia). rewrite repeat_length. replace (k - 8)%nat with 0%nat by lia. apply zn_R. }
  f_equal.
  - unfold vmul. rewrite !(nth_zip _ 0 0) by (rewrite ?zipw_length, ?repeat_length, ?L1, ?LI, ?LW; cbn; lia). rewrite nth_rep by exact K9. rewrite zn_R, RA. rewrite (proj2 (window_area s ws k NI SC W K9)). ops. unfold window_sun. ring.
  - unfold vsub. rewrite (nth_zip _ 0 0) by (unfold vmul; rewrite !zipw_length, ?LI, ?LK, ?LA, ?LF; cbn; lia). unfold vmul at 1 2. rewrite !(nth_zip _ 0 0) by (rewrite ?LI, ?LK, ?LA, ?LF; cbn; lia).
    rewrite SV, RA. unfold skyRadiation, wallSolarArea, vmul, scale.
    rewrite !(nth_zip _ 0 0) by (rewrite ?zipw_length, ?map_length, ?repeat_length, ?L2, ?L3, ?L4, ?L5; cbn; lia). rewrite !nth_rep by exact K9. rewrite !zn_R.
    rewrite (nth_indep (map _ (st_wallEmissivity s)) 0 (0 * 5)) by (rewrite map_length, L4; exact K9). rewrite (map_nth (fun x => x * 5)). ops. unfold wall_sun. ring.
Qed.
Lemma C62_l p w m i : sound p -> monthlyAll (map_params Fin p) (fin_weather w) = Ok m -> (i < 12)%nat ->
  nth_error (mr_Esol m) i = Some (Fin (solar_gain (pa_structure p) w i)).
Proof.
  intros S M I. apply monthlyAll_run in M. destruct (run_fin _ _ _ S M) as (r & E & F). rewrite (fr_sol _ _ F), nth_error_map. destruct (rn_sol _ _ _ E) as (ws & W & ->).
  rewrite (solar_month _ _ _ _ (so_surf p S) (so_sdf p S) (rn_tab _ _ _ E) W I). reflexivity.
Qed.

(** *** Internal gains *)
Lemma light_tot_R (p : params_t R) hrs : lu_tot (lightingEnergyUse p hrs) = lightTotal p.
Proof. unfold lightingEnergyUse, hoursInYear. cbn [lu_tot]. rewrite !zn_R. reflexivity. Qed.
Lemma internal_run p w r light : sound p -> run p w r -> light = lightTotal p / st_floorArea (pa_structure p) -> internalHeatGain (pa_structure p) (mr_gains r) = internal_gain p light.
Proof.
  intros S E ->. rewrite (rn_gains _ _ _ E), (rn_lu _ _ _ E), (rn_oc _ _ _ E). pose proof (sound_occ p S) as (_ & _ & O & _). cbv zeta in O.
  unfold internalHeatGain, heatGainsAndLosses. rewrite light_tot_R. cbn [ga_int ga_plug ga_illum]. rewrite O. unfold internal_gain, gain_occupied, gain_unoccupied, occupied_share.
  set (h := day_length (pa_population p) * week_days (pa_population p) / 168). clearbody h. unfold hoursInYear. rewrite !zn_R. ops.
 pose proof (so_area p S). pose proof (so_dens1 p S). pose proof (so_dens2 p S). field. repeat split; lra.
Qed.
Lemma C63_l p w m rows : sound p -> monthlyAll (map_params Fin p) (fin_weather w) = Ok m -> simulateMonthly (map_params Fin p) (fin_weather w) = Ok rows ->
  exists light fr, length fr = 12%nat /\ Rsum fr = 1 + 2 / 10 ^ 16 /\
    (forall j, (j < 12)%nat -> exists f, nth_error fr j = Some f /\ Rabs (f - IZR (nth j days_in_month 0%Z) / 365) <= 1 / 10 ^ 15) /\
    is_series elec_int_lights rows (map (fun f => Fin (light * f)) fr) /\
    internalHeatGain (pa_structure (map_params Fin p)) (mr_gains m) = Fin (internal_gain p light).
Proof.
  intros S M SM. exists (lightTotal p / st_floorArea (pa_structure p)). destruct (light_split_l p (fin_weather w) rows (so_area p S) SM) as (fr & A & B & C & D). exists fr.
  split; [exact A|]. split; [exact B|]. split; [exact C|]. split; [exact D|]. apply monthlyAll_run in M. destruct (run_fin _ _ _ S M) as (r & E & F). rewrite (fr_gains _ _ F).
  change (pa_structure (map_params Fin p)) with (map_structure Fin (pa_structure p)). rewrite internal_fin. f_equal. now apply (internal_run p w r).
Qed.

(** *** Ventilation *)
Lemma pow0 x y : 0 <= x -> 0 < y -> Rpow x y = power0 x y.
Proof. intros X Y. unfold Rpow, power0. destruct (Rlt_dec 0 x); [reflexivity|]. destruct (Req_EM_T y 0); [lra|]. destruct (Req_EM_T x 0); [reflexivity|lra]. Qed.
Lemma stack_spec p te t : sound p -> stackFlow p te t = stack_flow p te t.
Proof.
  intros S. unfold stackFlow, stack_flow, stackHeight. cbn [lit R_num]. unfold Rlit. ops. rewrite ?nmax_R.
  rewrite pow0; [replace (1 * / 10) with (1 / 10) by lra; f_equal; ring| |apply S]. apply Rmult_le_pos; [apply Rabs_pos|]. apply Rmult_le_pos; [apply S|]. eapply Rle_trans; [|apply Rmax_l]. lra.
Qed.
Lemma wind_spec p v : sound p -> windFlow p v = wind_flow p v.
Proof.
  intros S. unfold windFlow, wind_flow. ops. replace (v * v * ve_dCp (pa_ventilation p) * pa_terrain p) with (v * v * (ve_dCp (pa_ventilation p) * pa_terrain p)) by ring.
  rewrite pow0; [ring| |apply S]. apply Rmult_le_pos; [apply Rle_0_sqr|apply S].
Qed.
Lemma vent_spec p te v t : sound p -> st_infiltrationRate (pa_structure p) <> 0 ->
  ventilationCoefficient p (oc_wk_day (scheduleAndOccupancy (pa_population p))) te v t = ventilation_coefficient p te v t.
Proof.
  intros S N. rewrite coef_R. pose proof (sound_occ p S) as (_ & _ & O & _). cbv zeta in O. rewrite O. change (day_length (pa_population p) * week_days (pa_population p) / 168) with (occupied_share (pa_population p)).
  unfold ventilation_coefficient. assert (A : infiltration p (stackFlow p te t) (windFlow p v) = leakage p te v t).
  { unfold infiltration, leakage. rewrite stack_spec, wind_spec by exact S. rewrite sdiv_R by exact N. rewrite zn_R. cbn [lit R_num]. unfold Rlit. ops. rewrite ?nmax_R.
    assert (X : flowDifference p = excess_flow p). { unfold flowDifference, excess_flow. rewrite supply_R, zn_R. cbn [lit R_num]. unfold Rlit. ops. pose proof (so_area p S). field. lra. }
    rewrite X. cbn [nopp R_num]. f_equal. f_equal. field. exact N. }
  rewrite A. assert (B : mechanicalFlow p (occupied_share (pa_population p)) = fan_flow p).
  { unfold mechanicalFlow, fan_flow, ventFraction, running_share. rewrite !zn_R, supply_R. ops. unfold Reqb. destruct (Req_EM_T (ve_type (pa_ventilation p)) 3); [reflexivity|].
    change (supply_flow p) with (ve_supplyRate (pa_ventilation p) / st_floorArea (pa_structure p) / (36 / 10)). f_equal. f_equal. f_equal.
    destruct (ve_vent_rate_flag (pa_ventilation p)) as [|[q|q|]|q]; cbn [Z.eqb Pos.eqb]; try reflexivity; pose proof (so_dens2 p S); field; lra. }
  rewrite B. field.
Qed.
Lemma vent_nth p w wk t i te v x : nth_error (mw_mdbt w) i = Some te -> nth_error (mw_mwind w) i = Some v -> nth_error t i = Some x ->
  nth_error (ventilationCalc p w wk t) i = Some (@ventilationCoefficient R _ p wk te v x).
Proof. intros A B C. unfold ventilationCalc. apply (nth_zipw (fun f x => f x) _ _ i (ventilationCoefficient p wk te v)); [|exact C]. now apply nth_zipw. Qed.
Lemma C64_l p w m i : sound p -> st_infiltrationRate (pa_structure p) <> 0 -> monthlyAll (map_params Fin p) (fin_weather w) = Ok m -> (i < 12)%nat ->
  exists t tc te v, nth_error (te_h (mr_temps m)) i = Some (Fin t) /\ nth_error (te_c (mr_temps m)) i = Some (Fin tc) /\ nth_error (mw_mdbt w) i = Some te /\ nth_error (mw_mwind w) i = Some v /\
    nth_error (mr_Hve_ht m) i = Some (Fin (ventilation_coefficient p te v t)) /\ nth_error (mr_Hve_cl m) i = Some (Fin (ventilation_coefficient p te v tc)).
Proof.
  intros S N M I. apply monthlyAll_run in M. destruct (run_fin _ _ _ S M) as (r & E & F). destruct (run_lengths _ _ _ E) as (L1 & L2 & _). pose proof (rn_tab _ _ _ E) as (_ & _ & _ & _ & T2 & T3).
  destruct (nth_some _ i _ L1 I) as [t T]. destruct (nth_some _ i _ L2 I) as [tc TC]. destruct (nth_some _ i _ T2 I) as [te TE]. destruct (nth_some _ i _ T3 I) as [v V]. exists t, tc, te, v.
  rewrite (fr_temps _ _ F), (fr_Hve_ht _ _ F), (fr_Hve_cl _ _ F). cbn [fin_temps te_h te_c]. rewrite !nth_error_map, T, TC. split; [reflexivity|]. split; [reflexivity|]. split; [exact TE|]. split; [exact V|].
  rewrite (rn_Hve_ht _ _ _ E), (rn_Hve_cl _ _ _ E), (rn_oc _ _ _ E). rewrite (vent_nth _ _ _ _ _ _ _ _ TE V T), (vent_nth _ _ _ _ _ _ _ _ TE V TC). rewrite !vent_spec by assumption. split; reflexivity.
Qed.

(** *** Appliances *)
Lemma hours_list : @hoursInMonth R _ = map month_hours (seq 0 12).
Proof.
  unfold hoursInMonth, month_hours. cbn [map seq nth days_in_month]. rewrite !zn_R. do 12 (apply f_equal2; [lra|]). reflexivity.
Qed.
Lemma C65_l p w rows : sound p -> simulateMonthly (map_params Fin p) (fin_weather w) = Ok rows ->
  is_series elec_int_equip rows (map (fun i => Fin (appliance_kWh p (bu_elecApplianceOcc (pa_building p)) (bu_elecApplianceUnocc (pa_building p)) (month_hours i))) (seq 0 12)) /\
  is_series gas_equip rows (map (fun i => Fin (appliance_kWh p (bu_gasApplianceOcc (pa_building p)) (bu_gasApplianceUnocc (pa_building p)) (month_hours i))) (seq 0 12)).
Proof.
  intros S SM. destruct (monthlyAll (map_params Fin p) (fin_weather w)) as [m| |] eqn:M; [|unfold simulateMonthly in SM; rewrite M in SM; discriminate SM..].
  destruct (simulate_columns _ _ _ _ M SM) as (RU & _ & X). pose proof (sound_occ p S) as (_ & _ & O & _). cbv zeta in O.
  assert (G : forall k a b, nth_error (columns (map_params Fin p) m) k = Some (plugLoad (Fin a) (Fin b) (oc_wk_day (mr_occ m))) -> is_series k rows (map (fun i => Fin (appliance_kWh p a b (month_hours i))) (seq 0 12))).
  { intros k a b K. specialize (X k _ K). rewrite (rn_oc _ _ _ RU) in X. cbn [map_params pa_population] in X. rewrite oc_fin in X. cbn [fin_oc oc_wk_day] in X. rewrite plug_fin in X.
    unfold plugMonth in X. rewrite O, hours_list, !map_map in X. erewrite map_ext; [exact X|]. intros i. cbn beta. f_equal. unfold appliance_kWh, occupied_share. field. }
  split; apply G; reflexivity.
Qed.

(** *** Fans *)
Lemma fan_at p th tc qh qc i t c h k : 0 < st_floorArea (pa_structure p) -> (i < 12)%nat -> nth_error th i = Some t -> nth_error tc i = Some c -> nth_error qh i = Some h -> nth_error qc i = Some k ->
  ph_rhoCpAir (pa_phys p) * (ht_tempOcc (pa_heating p) + ht_dT_supp (pa_heating p) - t) + Rdblmin <> 0 ->
  ph_rhoCpAir (pa_phys p) * (c - (cl_tempOcc (pa_cooling p) - cl_dT_supp (pa_cooling p))) + Rdblmin <> 0 ->
  nth_error (fanEnergyMonthly p (occupied_share (pa_population p)) th tc qh qc) i = Some (fan_kWh p (fan_air p t c h k i Rdblmin)).
Proof.
  intros A I T C H K D1 D2. unfold fanEnergyMonthly. rewrite !divs_R by (rewrite ?zn_R; (exact lit36 || lra)). rewrite !scale_R, !map_map.
  rewrite nth_error_map. unfold vmax. rewrite (nth_zipw _ _ _ _ (h / (ph_rhoCpAir (pa_phys p) * (ht_tempOcc (pa_heating p) + ht_dT_supp (pa_heating p) - t) + Rdblmin) + k / (ph_rhoCpAir (pa_phys p) * (c - (cl_tempOcc (pa_cooling p) - cl_dT_supp (pa_cooling p))) + Rdblmin))
    (ve_supplyRate (pa_ventilation p) * occupied_share (pa_population p) * (month_megaseconds i * 1000))).
  - cbn [option_map]. f_equal. rewrite nmax_R, zn_R. cbn [lit R_num]. unfold Rlit, fan_kWh, fan_air. cbv zeta. ops. unfold Rdiv. ring.
  - unfold vadd. apply nth_zipw.
    + unfold vdiv. rewrite (nth_zipw _ _ _ _ h (ph_rhoCpAir (pa_phys p) * (ht_tempOcc (pa_heating p) + ht_dT_supp (pa_heating p) - t) + Rdblmin) H); [now rewrite sdiv_R|].
      unfold shift, scale. rewrite !nth_error_map, T. cbn [option_map]. f_equal. ops. ring.
    + unfold vdiv. rewrite (nth_zipw _ _ _ _ k (ph_rhoCpAir (pa_phys p) * (c - (cl_tempOcc (pa_cooling p) - cl_dT_supp (pa_cooling p))) + Rdblmin) K); [now rewrite sdiv_R|].
      unfold shift, scale. rewrite !nth_error_map, C. cbn [option_map]. f_equal. ops. ring.
  - rewrite nth_error_map, (mega_nth i I). cbn [option_map]. f_equal. rewrite !zn_R. ops. field.
Qed.
Lemma series_nth {A} k (rows : list (list A)) v i x : is_series k rows v -> nth_error v i = Some x -> exists row, nth_error rows i = Some row /\ nth_error row k = Some x.
Proof. intros S. revert i. induction S as [|row y rows v E S IH]; intros [|i] H; try discriminate H; cbn in *; [injection H as <-; eauto|now apply IH]. Qed.
Lemma C66_l p w m rows i t tc qh qc : sound p -> monthlyAll (map_params Fin p) (fin_weather w) = Ok m -> simulateMonthly (map_params Fin p) (fin_weather w) = Ok rows -> (i < 12)%nat ->
  nth_error (te_h (mr_temps m)) i = Some (Fin t) -> nth_error (te_c (mr_temps m)) i = Some (Fin tc) ->
  ne_ht (mr_needs m) = map Fin qh -> ne_cl (mr_needs m) = map Fin qc ->
  ph_rhoCpAir (pa_phys p) * (ht_tempOcc (pa_heating p) + ht_dT_supp (pa_heating p) - t) + Rdblmin <> 0 ->
  ph_rhoCpAir (pa_phys p) * (tc - (cl_tempOcc (pa_cooling p) - cl_dT_supp (pa_cooling p))) + Rdblmin <> 0 ->
  exists row h c, nth_error rows i = Some row /\ nth_error qh i = Some h /\ nth_error qc i = Some c /\
    nth_error row elec_fans = Some (Fin (fan_kWh p (fan_air p t tc h c i Rdblmin))).
Proof.
  intros SO M SM I T TC H C D1 D2. destruct (simulate_columns _ _ _ _ M SM) as (RU & _ & S). specialize (S elec_fans _ eq_refl). destruct (run_fin _ _ _ SO RU) as (r & E & F).
  assert (X : ne_fan (mr_needs m) = fanEnergyMonthly (map_params Fin p) (oc_wk_day (mr_occ m)) (te_h (mr_temps m)) (te_c (mr_temps m)) (ne_ht (mr_needs m)) (ne_cl (mr_needs m))) by (rewrite (rn_needs _ _ _ RU); reflexivity).
  destruct (needs_yr p (fin_weather w) m qh qc RU H C) as (_ & _ & L1 & L2).
  rewrite (fr_temps _ _ F) in T, TC. cbn [fin_temps te_h te_c] in T, TC. apply nth_map_fin in T. apply nth_map_fin in TC. destruct T as (t' & T & ET). destruct TC as (tc' & TC & ETC). injection ET as <-. injection ETC as <-.
  destruct (nth_some _ i _ L1 I) as [h Hh]. destruct (nth_some _ i _ L2 I) as [c Hc].
  rewrite H, C, (fr_temps _ _ F), (rn_oc _ _ _ RU) in X. cbn [map_params pa_population] in X. rewrite oc_fin in X. cbn [fin_oc oc_wk_day fin_temps te_h te_c] in X. rewrite fan_fin in X. rewrite X in S.
  pose proof (sound_occ p SO) as (_ & _ & O & _). cbv zeta in O. rewrite O in S.
  assert (N := fan_at p _ _ _ _ i _ _ _ _ (so_area p SO) I T TC Hh Hc D1 D2). unfold occupied_share in N.
  destruct (series_nth _ _ _ i (Fin (fan_kWh p (fan_air p t tc h c i Rdblmin))) S) as (row & R1 & R2); [now rewrite nth_error_map, N|]. exists row, h, c. auto.
Qed.
(** Ventilation alone sets a lower bound. *)
Lemma C66_floor_l p t tc h c i d : 0 < st_floorArea (pa_structure p) -> 0 <= ve_fanPower (pa_ventilation p) * ve_fanControlFactor (pa_ventilation p) ->
  fan_kWh p (ve_supplyRate (pa_ventilation p) * occupied_share (pa_population p) * (month_megaseconds i * 1000)) <= fan_kWh p (fan_air p t tc h c i d).
Proof.
  intros A P. unfold fan_kWh, Rdiv. apply Rmult_le_compat_r; [lra|]. apply Rmult_le_compat_r; [apply Rlt_le, Rinv_0_lt_compat; lra|].
  apply Rmult_le_compat_r; [apply Rmult_le_pos; lra|]. unfold fan_air. apply Rmax_r.
Qed.
