(** Internal gains for any schedule; what a building that is never closed, or never open, does to the table. *)
From Coq Require Import Reals Lra Psatz ZArith List Bool Lia.
From Verif Require Import Base Num Xr M_Params M_Monthly M_Map L_Xr L_HourlyShape L_HourlyFin2 L_Office S_Calendar S_Schedule S_Results S_Monthly
  S_MonthlySound S_Physical L_Monthly L_Monthly2 L_Monthly3 L_Monthly4 L_Monthly5 L_Monthly6 L_MonthlyFin L_MonthlyFin2 E_SmallOffice E_Monthly.
Import ListNotations.
Open Scope R_scope.

(** *** Gains *)
Lemma lu_fin_tot p hrs : lu_tot (lightingEnergyUse (map_params Fin p) hrs) = Fin (lu_tot (lightingEnergyUse p [])) /\
  lu_unocc (lightingEnergyUse (map_params Fin p) hrs) = Fin (lu_unocc (lightingEnergyUse p [])).
Proof.
  pose proof (lu_fin p []) as E. change (map Fin []) with (@nil xr) in E. split.
  - change (lu_tot (lightingEnergyUse (map_params Fin p) hrs)) with (lu_tot (lightingEnergyUse (map_params Fin p) [])). now rewrite E.
  - change (lu_unocc (lightingEnergyUse (map_params Fin p) hrs)) with (lu_unocc (lightingEnergyUse (map_params Fin p) [])). now rewrite E.
Qed.
Lemma gains_eq (p : params_t xr) wk lu lu' : lu_tot lu = lu_tot lu' -> lu_unocc lu = lu_unocc lu' -> heatGainsAndLosses p wk lu = heatGainsAndLosses p wk lu'.
Proof. intros A B. unfold heatGainsAndLosses. now rewrite A, B. Qed.
Lemma C23_l p w m : 0 < st_floorArea (pa_structure p) -> 0 < po_densityOcc (pa_population p) -> 0 < po_densityUnocc (pa_population p) ->
  day_length (pa_population p) * week_days (pa_population p) <> 168 -> monthlyAll (map_params Fin p) w = Ok m ->
  finite (ga_int (mr_gains m)) /\ finite (ga_plug (mr_gains m)) /\ finite (ga_illum (mr_gains m)) /\ finite (ga_unocc (mr_gains m)) /\
  finite (internalHeatGain (pa_structure (map_params Fin p)) (mr_gains m)).
Proof.
  intros HA H1 H2 H3 H. apply monthlyAll_run in H.
  assert (E : mr_gains m = fin_gains (heatGainsAndLosses p (oc_wk_day (scheduleAndOccupancy (pa_population p))) (lightingEnergyUse p []))).
  { rewrite (rn_gains _ _ _ H), (rn_lu _ _ _ H), (rn_oc _ _ _ H). cbn [map_params pa_population]. rewrite oc_fin. cbn [fin_oc oc_wk_day].
    destruct (lu_fin_tot p (bd_hrsSunDown (mr_bd m))) as [A B]. rewrite (gains_eq _ _ _ (fin_lu (lightingEnergyUse p []))) by assumption. apply gains_fin; try lra.
    unfold scheduleAndOccupancy, hoursInWeek. cbn [oc_wk_day]. rewrite day_length_eq, week_days_eq, zn_R. ops. lra. }
  rewrite E. cbn [fin_gains ga_int ga_plug ga_illum ga_unocc]. repeat split; try (eexists; reflexivity).
Qed.

(** *** NaN *)
Lemma mul_nan_l x : nmul NaN x = NaN. Proof. reflexivity. Qed.
Lemma mul_nan_r x : nmul x NaN = NaN. Proof. now destruct x. Qed.
Lemma add_nan_l x : nadd NaN x = NaN. Proof. reflexivity. Qed.
Lemma add_nan_r x : nadd x NaN = NaN. Proof. now destruct x. Qed.
Lemma sub_nan_l x : nsub NaN x = NaN. Proof. now destruct x. Qed.
Lemma div_nan_l x : ndiv NaN x = NaN. Proof. reflexivity. Qed.
Lemma div_nan_r x : ndiv x NaN = NaN. Proof. now destruct x. Qed.
Lemma max_nan_l x : nmax NaN x = NaN. Proof. reflexivity. Qed.
Lemma min_nan_l x : nmin NaN x = NaN. Proof. unfold nmin. destruct x; reflexivity. Qed.
Lemma sdiv_nan_r x : sdiv x NaN = NaN. Proof. unfold sdiv. rewrite zn_fin. cbn [neqb xr_num xeqb]. apply div_nan_r. Qed.
Lemma sdiv_nan_l y : y <> 0 -> sdiv NaN (Fin y) = NaN.
Proof. intros H. unfold sdiv. rewrite zn_fin, zn_R, eqb_fin. cbn [neqb R_num]. rewrite Reqb_false by exact H. reflexivity. Qed.
Lemma acc_nan l : In NaN l -> accumulate l = NaN.
Proof.
  unfold accumulate. generalize (@zn xr _ 0). assert (Z : forall k, fold_left nadd k NaN = NaN) by (induction k as [|x k IH]; [reflexivity|exact IH]).
  induction l as [|x l IH]; intros a I; [destruct I|]. cbn [fold_left]. destruct I as [->|I]; [rewrite add_nan_r; apply Z|now apply IH].
Qed.
Definition nans (v : list xr) : Prop := forall x, In x v -> x = NaN.
Lemma nans_zip_l (f : xr -> xr -> xr) a b : (forall y, f NaN y = NaN) -> nans a -> nans (zipw f a b).
Proof.
  intros H. revert b. induction a as [|x a IH]; intros [|y b] N z I; try (destruct I; fail). cbn [zipw] in I. destruct I as [<-|I].
  - rewrite (N x (or_introl eq_refl)). apply H.
  - apply (IH b); [intros u J; apply N; now right|exact I].
Qed.
Lemma nans_zip_r (f : xr -> xr -> xr) a b : (forall y, f y NaN = NaN) -> nans b -> nans (zipw f a b).
Proof.
  intros H. revert b. induction a as [|x a IH]; intros [|y b] N z I; try (destruct I; fail). cbn [zipw] in I. destruct I as [<-|I].
  - rewrite (N y (or_introl eq_refl)). apply H.
  - apply (IH b); [intros u J; apply N; now right|exact I].
Qed.
Lemma nans_map (f : xr -> xr) a : f NaN = NaN -> nans a -> nans (map f a).
Proof. intros H N z I. apply in_map_iff in I. destruct I as (x & <- & I). rewrite (N x I). exact H. Qed.

(** A period without hours. *)
Lemma decayMean_zero tau s q : tau <> 0 -> pe_t q = Fin 0 -> decayMean (Fin tau) s q = NaN.
Proof.
  intros H Q. unfold decayMean. rewrite Q.
  assert (E : nsub (zn 1) (nexp (ndiv (nmul (nopp (zn 1)) (Fin 0)) (Fin tau))) = Fin 0).
  { rewrite zn_fin, opp_fin, mul_fin, div_fin', exp_fin, sub_fin, zn_R by exact H. ops. replace (- (1) * 0 / tau) with 0 by (field; exact H). rewrite exp_0. f_equal. lra. }
  rewrite E. cbn [ndiv xr_num xdiv]. destruct (Req_EM_T 0 0) as [_|C]; [|now destruct C].
  assert (I : nmul (nmul (xscale tau PInf NInf) (nsub (nsub s (pe_Te q)) (pe_dT q))) (Fin 0) = NaN).
  { set (x := nsub _ _). clearbody x. assert (Z : forall y, y <> Fin 0 -> (forall r, y <> Fin r) -> nmul y (Fin 0) = NaN).
    { intros [r| | |] A B; try reflexivity; try (now destruct (B r)); cbn; unfold xscale; destruct (Rlt_dec 0 0); try lra; reflexivity. }
    assert (Y : forall r, nmul (xscale tau PInf NInf) x <> Fin r).
    { intros y. unfold xscale. destruct (Rlt_dec 0 tau); [|destruct (Rlt_dec tau 0); [|lra]];
      (destruct x as [v| | |]; cbn [nmul xr_num xmul]; unfold xscale; try discriminate; destruct (Rlt_dec 0 v); try discriminate; destruct (Rlt_dec v 0); discriminate). }
    apply Z; [apply Y|exact Y]. }
  cbn [nmul xr_num] in I |- *. rewrite I. reflexivity.
Qed.
Lemma heating_zero tau c u a b x d e : tau <> 0 -> pe_t b = Fin 0 \/ pe_t a = Fin 0 -> In NaN (heatingPeriods (Fin tau) c u [a; b; x; d; e]).
Proof.
  intros H Q. unfold heatingPeriods. cbn [firstn decayChain map zipw]. destruct Q as [Q|Q].
  - right. left. rewrite decayMean_zero by assumption. reflexivity.
  - left. rewrite decayMean_zero by assumption. reflexivity.
Qed.
Lemma weekMean_nan oc c tb : In NaN tb -> weekMean oc c (Fin 1) tb = NaN.
Proof.
  intros I. unfold weekMean. rewrite (zn_fin 1), zn_R, eqb_fin. cbn [neqb R_num]. rewrite Reqb_true by reflexivity.
  rewrite acc_nan by exact I. rewrite div_nan_l, mul_nan_l, add_nan_r. apply min_nan_l.
Qed.

(** The whole year. *)
Lemma temps_nan p w m : ht_T_ctrl_flag (pa_heating p) = 1 -> 0 < envelope_UA (pa_structure p) + ve_H_ve (pa_ventilation p) -> 0 < heat_capacity (pa_structure p) ->
  day_length (pa_population p) = 0 \/ day_length (pa_population p) = 24 -> nine_surfaces (pa_structure p) ->
  run (map_params Fin p) w m -> nans (te_h (mr_temps m)).
Proof.
  intros F L C D S R. pose proof (rn_temps _ _ _ R) as B. cbv zeta in B. unfold interiorTemp in B. cbv zeta in B.
  destruct (bemAdjust _) as [adj| |]; [cbn [obind] in B|discriminate B|discriminate B]. apply ok_inj in B. rewrite <- B. cbn [te_h]. clear B.
  intros x I. apply in_map_iff in I. destruct I as (q & <- & I). apply (zip5_in (periods (mr_occ m) _)) in I. destruct I as (xa & xb & xc & xd & xe & ->).
  cbn [map_params pa_heating map_heating ht_T_ctrl_flag]. rewrite F. apply weekMean_nan.
  rewrite (rn_H _ _ _ R). change (pa_structure (map_params Fin p)) with (map_structure Fin (pa_structure p)). rewrite UA_fin, UA_R by exact S.
  change (ve_H_ve (pa_ventilation (map_params Fin p))) with (Fin (ve_H_ve (pa_ventilation p))). rewrite add_fin.
  change (nadd (envelope_UA (pa_structure p)) (ve_H_ve (pa_ventilation p))) with (envelope_UA (pa_structure p) + ve_H_ve (pa_ventilation p)). rewrite tau_fin by lra.
  unfold periods. apply heating_zero.
  - rewrite cap_R. apply Rgt_not_eq. unfold Rdiv. apply Rmult_lt_0_compat; [apply Rmult_lt_0_compat; [assumption|now apply Rinv_0_lt_compat]|lra].
  - rewrite (rn_oc _ _ _ R). cbn [map_params pa_population]. rewrite oc_fin. cbn [pe_t fin_oc oc_hoursOcc oc_hoursUnocc scheduleAndOccupancy]. rewrite day_length_eq, zn_R. ops.
    destruct D as [-> | ->]; [left; reflexivity|right; f_equal; lra].
Qed.
Lemma needs_nan p w m : run (map_params Fin p) w m -> nans (te_h (mr_temps m)) -> nans (ne_ht (mr_needs m)).
Proof.
  intros R T. rewrite (rn_needs _ _ _ R). unfold heatingAndCooling. cbn [ne_ht]. unfold needHeating. apply nans_zip_l; [exact sub_nan_l|].
  unfold lossesHeating. apply nans_zip_l; [exact add_nan_l|]. apply nans_map; [reflexivity|]. apply nans_zip_l; [exact mul_nan_l|]. apply nans_zip_l; [exact sub_nan_l|exact T].
Qed.
Lemma C23_extreme_l p w rows : 0 < st_floorArea (pa_structure p) -> 0 < envelope_UA (pa_structure p) + ve_H_ve (pa_ventilation p) -> 0 < heat_capacity (pa_structure p) ->
  0 < ht_efficiency (pa_heating p) -> ht_DH_YesNo (pa_heating p) <> 1 -> ht_T_ctrl_flag (pa_heating p) = 1 ->
  day_length (pa_population p) = 0 \/ day_length (pa_population p) = 24 -> simulateMonthly (map_params Fin p) w = Ok rows ->
  forall row x, In row rows -> nth_error row (if Req_EM_T (ht_energyType (pa_heating p)) 1 then elec_heating else gas_heating) = Some x -> x = NaN.
Proof.
  intros HA HL HC HE HD HF D H. destruct (simulateMonthly_cases _ _ _ H) as (m & R & _ & S').
  assert (S9 : nine_surfaces (pa_structure p)).
  { intros v I. pose proof (rn_surf _ _ _ R) as N. cbn [map_params pa_structure] in N. rewrite <- (map_length Fin). apply N. cbn in I |- *.
    repeat (destruct I as [<-|I]; [tauto|]). destruct I. }
  pose proof (needs_nan _ _ _ R (temps_nan _ _ _ HF HL HC D S9 R)) as N.
  destruct (run_lengths _ _ _ R) as (_ & _ & L3 & _ & _).
  assert (Y : ne_ht_yr (mr_needs m) = NaN).
  { rewrite (rn_needs _ _ _ R) in *. unfold heatingAndCooling in *. cbn [ne_ht_yr ne_ht] in *. apply acc_nan. revert L3 N. generalize (needHeating
      (ht_a_H0 (pa_heating (map_params Fin p)) + te_tau (mr_temps m) / ht_tau_H0 (pa_heating (map_params Fin p)))%num
      (lossesHeating (map_params Fin p) w (mr_H_tr m) (te_h (mr_temps m)) (mr_Hve_ht m))
      (totalGain (internalHeatGain (pa_structure (map_params Fin p)) (mr_gains m)) (mr_Esol m))).
    intros [|x l] L N; [discriminate L|]. left. apply N. now left. }
  assert (G : forall v, nans v -> forall k, is_series k rows (perArea (Fin (st_floorArea (pa_structure p))) v) -> forall row x, In row rows -> nth_error row k = Some x -> x = NaN).
  { intros v V k S. apply (series_forall k rows _ _ S). intros x I. unfold perArea, divs in I. rewrite map_map in I. apply in_map_iff in I.
    destruct I as (y & <- & I). rewrite (V y I), sdiv_nan_l by lra. rewrite kWh_fin. apply sdiv_nan_l. pose proof kWh_pos. lra. }
  assert (LS : nans (distLoss (ne_ht (mr_needs m)) (distHt (map_params Fin p) (ne_ht_yr (mr_needs m)) (ne_cl_yr (mr_needs m))))).
  { assert (Q : distHt (map_params Fin p) (ne_ht_yr (mr_needs m)) (ne_cl_yr (mr_needs m)) = NaN) by (unfold distHt, demandHt; rewrite Y; reflexivity).
    rewrite Q. unfold distLoss, divs. intros x I. apply in_map_iff in I. destruct I as (y & <- & _). apply sdiv_nan_r. }
  assert (SY : nans (divs (vadd (distLoss (ne_ht (mr_needs m)) (distHt (map_params Fin p) (ne_ht_yr (mr_needs m)) (ne_cl_yr (mr_needs m)))) (ne_ht (mr_needs m))) (ht_efficiency (pa_heating (map_params Fin p)) + ndblmin)%num)).
  { apply nans_map; [|apply nans_zip_l; [exact add_nan_l|exact LS]]. change (ht_efficiency (pa_heating (map_params Fin p))) with (Fin (ht_efficiency (pa_heating p))). rewrite dblmin_fin, add_fin.
    apply sdiv_nan_l. ops. pose proof Rdblmin_pos. lra. }
  pose proof (S' elec_heating _ eq_refl) as S1. pose proof (S' gas_heating _ eq_refl) as S2. rewrite (rn_hvac _ _ _ R) in S1, S2.
  unfold hvac in S1, S2. cbn [hv_elec_ht hv_gas_ht] in S1, S2.
  change (ht_DH_YesNo (pa_heating (map_params Fin p))) with (Fin (ht_DH_YesNo (pa_heating p))) in S1, S2.
  change (ht_energyType (pa_heating (map_params Fin p))) with (Fin (ht_energyType (pa_heating p))) in S1, S2.
  change (st_floorArea (pa_structure (map_params Fin p))) with (Fin (st_floorArea (pa_structure p))) in S1, S2.
  rewrite (zn_fin 1), zn_R, !eqb_fin in S1, S2. cbn [neqb R_num] in S1, S2. rewrite (Reqb_false (ht_DH_YesNo _)) in S1, S2 by exact HD.
  destruct (Req_EM_T (ht_energyType (pa_heating p)) 1) as [E|E].
  - rewrite (Reqb_true _ _ E) in S1. intros row x. apply (G _ SY _ S1).
  - rewrite (Reqb_false _ _ E) in S2. intros row x. refine (G _ _ _ S2 row x). apply nans_zip_l; [exact add_nan_l|exact SY].
Qed.

(** *** Two offices *)
Definition scheduleOffice (hs he ds de : Z) : params_t R := with_population monthlyOffice (week_schedule hs he ds de).
Lemma scheduleOffice_facts hs he ds de : let p := scheduleOffice hs he ds de in 0 < st_floorArea (pa_structure p) /\
  0 < envelope_UA (pa_structure p) + ve_H_ve (pa_ventilation p) /\ 0 < heat_capacity (pa_structure p) /\
  0 < ht_efficiency (pa_heating p) /\ ht_DH_YesNo (pa_heating p) <> 1 /\ ht_T_ctrl_flag (pa_heating p) = 1 /\ ht_energyType (pa_heating p) = 2 /\
  exists rows, simulateMonthly (map_params Fin p) mildYear = Ok rows.
Proof.
  intros p. split; [exact office_area|]. unfold p, scheduleOffice, envelope_UA, heat_capacity, dot, Rsum.
  cbn [with_population pa_structure pa_ventilation pa_heating monthlyOffice with_structure smallOffice shaded st_wallArea st_wallU st_windowArea st_windowU st_interiorHeatCapacity
    st_floorArea st_wallHeatCapacity ve_H_ve ht_efficiency ht_DH_YesNo ht_T_ctrl_flag ht_energyType combine map fold_right fst snd].
  rewrite !zn_R. cbn [lit R_num]. unfold Rlit. repeat split; try lra. apply office_defined; [reflexivity|apply zn_R].
Qed.
Lemma C23_refuted_l : exists p w rows, whole_schedule (pa_population p) 0 24 0 6 /\ simulateMonthly (map_params Fin p) w = Ok rows /\
  (forall row x, In row rows -> nth_error row gas_heating = Some x -> x = NaN) /\
  exists m, monthlyAll (map_params Fin p) w = Ok m /\ ga_unocc (mr_gains m) = PInf.
Proof.
  destruct (scheduleOffice_facts 0 24 0 6) as (A & B & C & D & E & F & G & rows & H). exists (scheduleOffice 0 24 0 6), mildYear, rows.
  split; [apply week_schedule_whole|]. split; [exact H|]. split.
  - intros row x. pose proof (C23_extreme_l (scheduleOffice 0 24 0 6) mildYear rows A B C D E F) as X. rewrite G in X. destruct (Req_EM_T 2 1) as [Z|_]; [lra|].
    apply X; [|exact H]. right. unfold day_length. cbn [scheduleOffice with_population pa_population week_schedule po_hoursEnd po_hoursStart]. destruct (Rlt_dec (24 - 0) 0); lra.
  - unfold simulateMonthly in H. destruct (monthlyAll (map_params Fin (scheduleOffice 0 24 0 6)) mildYear) as [m| |] eqn:M; [|discriminate H|discriminate H].
    exists m. split; [reflexivity|]. apply monthlyAll_run in M. rewrite (rn_gains _ _ _ M). unfold heatGainsAndLosses. cbn [ga_unocc].
    rewrite (rn_lu _ _ _ M), (proj2 (lu_fin_tot _ _)), (rn_oc _ _ _ M). cbn [map_params pa_population]. rewrite oc_fin. cbn [fin_oc oc_wk_day].
    assert (W : oc_wk_day (scheduleAndOccupancy (pa_population (scheduleOffice 0 24 0 6))) = 1).
    { unfold scheduleAndOccupancy, hoursInWeek. cbn [oc_wk_day]. rewrite day_length_eq, week_days_eq, zn_R. ops. unfold day_length, week_days.
      cbn [scheduleOffice with_population pa_population week_schedule po_hoursEnd po_hoursStart po_daysEnd po_daysStart].
      destruct (Rlt_dec (24 - 0) 0), (Rlt_dec (6 - 0 + 1) 0); lra. }
    rewrite W. assert (U : 0 < lu_unocc (lightingEnergyUse (scheduleOffice 0 24 0 6) [])).
    { unfold lightingEnergyUse. cbn [lu_unocc]. unfold lightDayHours, lightNightHours, hoursInYear, daysPerWeek.
      cbn [scheduleOffice with_population pa_population pa_lighting pa_structure monthlyOffice with_structure smallOffice shaded week_schedule po_hoursEnd po_hoursStart po_daysEnd po_daysStart
        li_n_day_end li_n_day_start li_n_weeks li_densityUnocc st_floorArea]. rewrite !zn_R. ops.
      rewrite (Rmin_left 18 24), (Rmax_right 0 7), (Rmax_left (7 - 0) 0), (Rmax_left (24 - 18) 0) by lra. rewrite (Rltb_false (18 - 7)), (Rltb_false (6 - 0 + 1)) by lra.
      cbn [lit R_num]. unfold Rlit. lra. }
    set (u := lu_unocc _) in *. clearbody u. unfold hoursInYear.
    cbn [map_structure map_population map_building pa_structure pa_population pa_building st_floorArea po_heatGainPerPerson po_densityUnocc bu_elecApplianceUnocc bu_gasApplianceUnocc].
    rewrite !zn_fin, !zn_R, sub_fin.
    change (st_floorArea (pa_structure (map_params Fin (scheduleOffice 0 24 0 6)))) with (Fin (st_floorArea (pa_structure (scheduleOffice 0 24 0 6)))).
    change (bu_elecApplianceUnocc (pa_building (map_params Fin (scheduleOffice 0 24 0 6)))) with (Fin (bu_elecApplianceUnocc (pa_building (scheduleOffice 0 24 0 6)))).
    change (bu_gasApplianceUnocc (pa_building (map_params Fin (scheduleOffice 0 24 0 6)))) with (Fin (bu_gasApplianceUnocc (pa_building (scheduleOffice 0 24 0 6)))).
    rewrite (div_fin' u) by (apply Rgt_not_eq; exact A). rewrite (div_fin' _ 8760) by lra.
    rewrite (div_fin' _ (po_densityUnocc _)). 2:{ cbn. lra. }
    rewrite !add_fin. match goal with |- nadd (Fin ?y) _ = _ => set (x := y) end. clearbody x. change (nsub 1 1) with (1 - 1). replace (1 - 1) with 0 by lra.
    assert (V : 0 < ndiv (ndiv u (st_floorArea (pa_structure (scheduleOffice 0 24 0 6)))) 8760).
    { cbn [ndiv R_num]. unfold Rdiv. repeat apply Rmult_lt_0_compat; try lra. now apply Rinv_0_lt_compat. }
    match type of V with 0 < ?y => change y with (u / st_floorArea (pa_structure (scheduleOffice 0 24 0 6)) / 8760) in * end.
    set (v := u / st_floorArea _ / 8760) in *. clearbody v. cbn [ndiv xr_num xdiv]. destruct (Req_EM_T 0 0) as [_|Z]; [|now destruct Z]. unfold xscale at 1. destruct (Rlt_dec 0 v); [|lra].
    cbn [nmul nadd xr_num xmul]. unfold xscale. destruct (Rlt_dec 0 1000); [reflexivity|lra].
Qed.
Lemma C23_never_l : exists p w rows, whole_schedule (pa_population p) 8 8 1 5 /\ simulateMonthly (map_params Fin p) w = Ok rows /\
  forall row x, In row rows -> nth_error row gas_heating = Some x -> x = NaN.
Proof.
  destruct (scheduleOffice_facts 8 8 1 5) as (A & B & C & D & E & F & G & rows & H). exists (scheduleOffice 8 8 1 5), mildYear, rows.
  split; [apply week_schedule_whole|]. split; [exact H|].
  intros row x. pose proof (C23_extreme_l (scheduleOffice 8 8 1 5) mildYear rows A B C D E F) as X. rewrite G in X. destruct (Req_EM_T 2 1) as [Z|_]; [lra|].
  apply X; [|exact H]. left. unfold day_length. cbn [scheduleOffice with_population pa_population week_schedule po_hoursEnd po_hoursStart]. destruct (Rlt_dec (8 - 8) 0); lra.
Qed.
