(** The small office with some schedules meets the hypotheses of the monthly theorems. *)
From Coq Require Import Reals Lra Psatz ZArith List Bool Lia.
From Verif Require Import Base Num Xr M_Params M_Monthly M_Map L_Xr L_HourlyShape L_HourlyFin2 L_Office S_Calendar S_Schedule S_Results S_Monthly S_Physical
  S_MonthlySound S_MonthlyHeat L_Monthly L_Monthly2 L_Monthly3 L_Monthly4 L_Monthly5 L_Monthly6 L_MonthlyFin L_MonthlyFin2 L_MonthlyNaN L_MonthlyGain L_MonthlyNeed L_MonthlyTemp E_SmallOffice E_Monthly.
Import ListNotations.
Open Scope R_scope.

Lemma office_sound hs he ds de : 0 < day_length (week_schedule hs he ds de) < 24 -> 0 <= week_days (week_schedule hs he ds de) <= 7 -> sound (scheduleOffice hs he ds de).
Proof.
  intros H D. destruct (scheduleOffice_facts hs he ds de) as (A & U & C & _).
  constructor; try assumption.
  - intros v I. cbn in I. repeat (destruct I as [<-|I]; [reflexivity|]). destruct I.
  - intros x I. left. change (st_windowSDF _) with (repeat (@zn R _ 1) 9) in I. apply repeat_spec in I. subst x. rewrite zn_R. apply (trunc_Z 1). lia.
  - exists 1%Z. change (bu_bem _) with (@zn R _ 1). rewrite zn_R. apply (trunc_Z 1). lia.
  - cbn [scheduleOffice with_population pa_population week_schedule po_densityOcc]. lra.
  - cbn [scheduleOffice with_population pa_population week_schedule po_densityUnocc]. lra.
  - cbn [scheduleOffice with_population monthlyOffice with_structure smallOffice pa_ventilation ve_zone_frac lit R_num]. unfold Rlit. lra.
  - cbn [scheduleOffice with_population monthlyOffice with_structure smallOffice pa_ventilation pa_terrain ve_dCp lit R_num]. unfold Rlit. lra.
  - cbn [scheduleOffice with_population monthlyOffice with_structure smallOffice pa_ventilation ve_stack_exp lit R_num]. unfold Rlit. lra.
  - cbn [scheduleOffice with_population monthlyOffice with_structure smallOffice pa_ventilation ve_wind_exp lit R_num]. unfold Rlit. lra.
  - cbn [scheduleOffice with_population monthlyOffice with_structure smallOffice pa_heating ht_tau_H0]. rewrite zn_R. lra.
Qed.
Lemma office_vent hs he ds de : vent_nonneg (scheduleOffice hs he ds de).
Proof.
  constructor; cbn [scheduleOffice with_population monthlyOffice with_structure smallOffice shaded pa_ventilation pa_structure pa_phys st_infiltrationRate ve_stack_coeff ve_wind_coeff ve_supplyRate
    ve_exhaustAirRecirculated ve_heatRecoveryEfficiency ph_rhoCpAir]; rewrite ?zn_R; cbn [nmul lit R_num]; unfold Rlit; lra.
Qed.
Lemma office_exponent hs he ds de : 0 < utilisation_exponent (scheduleOffice hs he ds de).
Proof.
  destruct (scheduleOffice_facts hs he ds de) as (A & U & C & _). unfold utilisation_exponent.
  assert (0 < heat_capacity (pa_structure (scheduleOffice hs he ds de)) / (envelope_UA (pa_structure (scheduleOffice hs he ds de)) + ve_H_ve (pa_ventilation (scheduleOffice hs he ds de)))).
  { apply Rmult_lt_0_compat; [exact C|]. apply Rinv_0_lt_compat. exact U. }
  change (ht_a_H0 _) with (@zn R _ 1). change (ht_tau_H0 _) with (@zn R _ 15). rewrite !zn_R.
  apply Rplus_lt_0_compat; [lra|]. repeat (apply Rmult_lt_0_compat; [|lra]). exact H.
Qed.
Lemma week_8_17 : day_length (week_schedule 8 17 1 5) = 9 /\ week_days (week_schedule 8 17 1 5) = 5.
Proof.
  unfold day_length, week_days. cbn [week_schedule po_hoursEnd po_hoursStart po_daysEnd po_daysStart].
  destruct (Rlt_dec (17 - 8) 0), (Rlt_dec (5 - 1 + 1) 0); lra.
Qed.
Lemma mild_fin : fin_weather mildYear = mildYear.
Proof. reflexivity. Qed.
Lemma simulate_all {T} {N : Num T} p w rows : simulateMonthly p w = Ok rows -> exists m, monthlyAll p w = Ok m.
Proof. unfold simulateMonthly. destruct (monthlyAll p w) as [m| |]; intros H; [now exists m|discriminate H|discriminate H]. Qed.
Lemma office_run hs he ds de : exists m, monthlyAll (map_params Fin (scheduleOffice hs he ds de)) (fin_weather mildYear) = Ok m.
Proof.
  destruct (scheduleOffice_facts hs he ds de) as (_ & _ & _ & _ & _ & _ & _ & rows & S).
  rewrite mild_fin. exact (simulate_all _ _ _ S).
Qed.
Lemma office_case : sound (scheduleOffice 8 17 1 5) /\ vent_nonneg (scheduleOffice 8 17 1 5) /\ 0 < utilisation_exponent (scheduleOffice 8 17 1 5) /\
  1 <= week_days (pa_population (scheduleOffice 8 17 1 5)) /\ ntrunc (bu_bem (pa_building (scheduleOffice 8 17 1 5))) = Some 1%Z /\
  cl_tempOcc (pa_cooling (scheduleOffice 8 17 1 5)) + bem_relief 1 <= cl_tempUnocc (pa_cooling (scheduleOffice 8 17 1 5)) /\
  exists m, monthlyAll (map_params Fin (scheduleOffice 8 17 1 5)) (fin_weather mildYear) = Ok m.
Proof.
  destruct week_8_17 as [H D]. split; [apply office_sound; lra|]. split; [apply office_vent|]. split; [apply office_exponent|].
  split; [change (pa_population _) with (week_schedule 8 17 1 5); lra|]. split; [change (bu_bem _) with (@zn R _ 1); rewrite zn_R; apply (trunc_Z 1); lia|].
  split. { cbn [scheduleOffice with_population monthlyOffice with_structure smallOffice pa_cooling cl_tempOcc cl_tempUnocc]. rewrite !zn_R. unfold bem_relief. cbn. lra. }
  apply office_run.
Qed.

(** *** Monday to Sunday *)
Lemma office_breakdown hs he ds de : exists b, solarRadiationBreakdown (scheduleAndOccupancy (map_population Fin (week_schedule hs he ds de))) (fin_weather mildYear) = Ok b.
Proof.
  destruct (office_run hs he ds de) as (m & M). apply monthlyAll_run in M. exists (mr_bd m).
  pose proof (rn_bd _ _ _ M) as B. rewrite (rn_oc _ _ _ M) in B. exact B.
Qed.
Lemma C27_refuted_l : exists po w b r, whole_schedule po 8 12 1 0 /\ full_tables w /\ (forall x, In x (mw_mhEgh w) -> all_nonneg x) /\
  solarRadiationBreakdown (scheduleAndOccupancy (map_population Fin po)) (fin_weather w) = Ok b /\ nth_error (bd_wk_nt b) 0 = Some (Fin r) /\ r < 0.
Proof.
  destruct (office_breakdown 8 12 1 0) as (b & B).
  assert (FT : full_tables (@mildYear R _)) by (cbn; repeat split; intros r I; repeat (destruct I as [<-|I]; [reflexivity|]); destruct I).
  assert (NN : forall x, In x (mw_mhEgh (@mildYear R _)) -> all_nonneg x).
  { intros x I. apply repeat_spec in I. subst x. intros y I. apply in_app_or in I. destruct I as [I|I]; [|apply in_app_or in I; destruct I as [I|I]];
      apply repeat_spec in I; subst y; rewrite zn_R; lra. }
  destruct (C27_days_l (week_schedule 8 12 1 0) mildYear b 0 (repeat (zn 0) 7 ++ repeat (zn 200) 10 ++ repeat (zn 0) 7)) as (r & E & L); try assumption.
  - unfold day_length. cbn [week_schedule po_hoursEnd po_hoursStart]. destruct (Rlt_dec (12 - 8) 0); lra.
  - reflexivity.
  - unfold week_days. cbn [week_schedule po_daysEnd po_daysStart]. destruct (Rlt_dec (0 - 1 + 1) 0); lra.
  - exists 12%nat, (zn 200). split; [reflexivity|]. split; [|rewrite zn_R; lra]. unfold in_window, day_length. cbn [week_schedule po_hoursEnd po_hoursStart].
    destruct (Rlt_dec (12 - 8) 0); [lra|]. replace (INR 12) with 12 by (cbn; lra). destruct (Rle_dec 7 12); [|reflexivity]. destruct (Rlt_dec 12 _); [lra|reflexivity].
  - exists (week_schedule 8 12 1 0), mildYear, b, r. split; [apply week_schedule_whole|]. repeat split; assumption || apply FT.
Qed.

(** *** The cooling set-back of the office, 30 or 40 degrees *)
Lemma C58_refuted_l : exists p m m' w, cl_tempOcc (pa_cooling p) = 28 /\ cl_T_ctrl_flag (pa_cooling p) = 1 /\ sound p /\
  monthlyAll (map_params Fin (set_cool_setback p 30)) (fin_weather w) = Ok m /\ monthlyAll (map_params Fin (set_cool_setback p 40)) (fin_weather w) = Ok m' /\
  te_c (mr_temps m) = repeat (Fin 28) 12 /\ te_c (mr_temps m') = repeat (Fin 28) 12.
Proof.
  set (p := scheduleOffice 8 17 1 5). destruct office_case as (S & _ & _ & D & B & _). fold p in S, D, B.
  assert (T : cl_tempOcc (pa_cooling p) = 28) by apply zn_R.
  assert (G : forall x, 28 <= x -> exists m, monthlyAll (map_params Fin (set_cool_setback p x)) (fin_weather mildYear) = Ok m /\ te_c (mr_temps m) = repeat (Fin 28) 12).
  { intros x X. assert (Sx : sound (set_cool_setback p x)) by (destruct S; constructor; assumption).
    destruct (office_defined (set_cool_setback p x)) as (rows & H); [reflexivity|apply zn_R|]. rewrite <- mild_fin in H. destruct (simulate_all _ _ _ H) as (m & M). exists m. split; [exact M|].
    assert (A : forall y, In y (te_c (mr_temps m)) -> y = Fin 28).
    { intros y I. assert (C : cl_tempOcc (pa_cooling p) + bem_relief 1 = 28) by (rewrite T; unfold bem_relief; cbn [Z.eqb Pos.eqb]; lra).
      rewrite <- C in X. rewrite (C58_l (set_cool_setback p x) mildYear m 1 Sx D B M X y I).
      change (Fin (cl_tempOcc (pa_cooling p) + bem_relief 1) = Fin 28). now rewrite C. }
    assert (L : length (te_c (mr_temps m)) = 12%nat).
    { apply monthlyAll_run in M. destruct (run_fin _ _ _ Sx M) as (r & E & F). rewrite (fr_temps _ _ F). cbn [fin_temps te_c]. rewrite map_length. exact (proj1 (proj2 (run_lengths _ _ _ E))). }
    rewrite <- L. clear L M. induction (te_c (mr_temps m)) as [|a l IH]; [reflexivity|]. cbn [length repeat]. rewrite (A a) by now left. f_equal. apply IH. intros y I. apply A. now right. }
  destruct (G 30 ltac:(lra)) as (m & M & E). destruct (G 40 ltac:(lra)) as (m' & M' & E'). exists p, m, m', mildYear. split; [exact T|]. split; [apply zn_R|]. split; [exact S|]. split; [exact M|]. split; [exact M'|]. split; [exact E|exact E'].
Qed.
