(** Ventilation on finite data, and the run as a whole. *)
From Coq Require Import Reals Lra Psatz ZArith List Bool Lia.
From Verif Require Import Base Num Xr M_Params M_Monthly M_Map L_Xr L_HourlyShape L_HourlyFin2 L_Office S_Calendar S_Schedule S_Results S_Monthly
  S_MonthlySound S_Physical L_Monthly L_Monthly2 L_Monthly3 L_Monthly4 L_Monthly5 L_MonthlyFin E_SmallOffice E_Monthly.
Import ListNotations.
Open Scope R_scope.

Record vent_ok (p : params_t R) : Prop := {
  vo_area : st_floorArea (pa_structure p) <> 0; vo_dens : po_densityUnocc (pa_population p) <> 0;
  vo_zone : 0 <= ve_zone_frac (pa_ventilation p); vo_wind : 0 <= ve_dCp (pa_ventilation p) * pa_terrain p;
  vo_sexp : 0 < ve_stack_exp (pa_ventilation p); vo_wexp : 0 < ve_wind_exp (pa_ventilation p) }.
Lemma lit36 : @lit R _ 36 10 <> 0. Proof. cbn [lit R_num]. unfold Rlit. lra. Qed.
Lemma supply_fin p : st_floorArea (pa_structure p) <> 0 -> supplyPerArea (map_params Fin p) = Fin (supplyPerArea p).
Proof.
  intros H. unfold supplyPerArea. cbn [map_params pa_ventilation pa_structure map_ventilation map_structure ve_supplyRate st_floorArea].
  rewrite lit_fin, !div_fin' by (exact H || exact lit36). reflexivity.
Qed.
Lemma flowDiff_fin p : st_floorArea (pa_structure p) <> 0 -> flowDifference (map_params Fin p) = Fin (flowDifference p).
Proof.
  intros H. unfold flowDifference. rewrite supply_fin by exact H. cbn [map_params pa_ventilation pa_structure map_ventilation map_structure ve_supplyDifference st_floorArea].
  rewrite lit_fin, !div_fin' by (exact H || exact lit36). rewrite sub_fin, opp_fin, zn_fin, !add_fin. reflexivity.
Qed.
Lemma height_fin p : stackHeight (map_params Fin p) = Fin (stackHeight p).
Proof. unfold stackHeight. cbn [map_params pa_ventilation pa_structure map_ventilation map_structure ve_zone_frac st_buildingHeight]. rewrite lit_fin, max_fin, mul_fin. reflexivity. Qed.
Lemma height_nonneg (p : params_t R) : 0 <= ve_zone_frac (pa_ventilation p) -> 0 <= stackHeight p.
Proof.
  intros H. unfold stackHeight. ops. apply Rmult_le_pos; [exact H|]. eapply Rle_trans; [|apply Rmax_l]. cbn [lit R_num]. unfold Rlit. lra.
Qed.
Lemma stack_fin p dbt t : vent_ok p -> stackFlow (map_params Fin p) (Fin dbt) (Fin t) = Fin (stackFlow p dbt t).
Proof.
  intros V. unfold stackFlow. rewrite height_fin. cbn [map_params pa_ventilation pa_structure map_ventilation map_structure ve_stack_exp ve_stack_coeff st_infiltrationRate].
  rewrite sub_fin, abs_fin, mul_fin, pow_fin0; [|apply Rmult_le_pos; [apply Rabs_pos|apply height_nonneg, V]|apply V].
  rewrite !mul_fin, lit_fin, max_fin. reflexivity.
Qed.
Lemma wind_fin p x : vent_ok p -> windFlow (map_params Fin p) (Fin x) = Fin (windFlow p x).
Proof.
  intros V. unfold windFlow. cbn [map_params pa_ventilation pa_structure map_ventilation map_structure ve_dCp pa_terrain ve_wind_exp st_infiltrationRate ve_wind_coeff].
  rewrite !mul_fin, pow_fin0; [|apply Rmult_le_pos; [apply Rle_0_sqr|apply V]|apply V]. rewrite !mul_fin. reflexivity.
Qed.
Lemma infil_fin p a b : st_floorArea (pa_structure p) <> 0 -> infiltration (map_params Fin p) (Fin a) (Fin b) = Fin (infiltration p a b).
Proof.
  intros H. unfold infiltration. rewrite flowDiff_fin by exact H. cbn [map_params pa_structure map_structure st_infiltrationRate].
  rewrite lit_fin, zn_fin, opp_fin, !mul_fin, sdiv_fin, !max_fin, !add_fin. reflexivity.
Qed.
Lemma ventFraction_fin p x : po_densityUnocc (pa_population p) <> 0 -> ventFraction (map_params Fin p) (Fin x) = Fin (ventFraction p x).
Proof.
  intros H. unfold ventFraction. cbn [map_params pa_ventilation pa_population map_ventilation map_population ve_vent_rate_flag po_densityOcc po_densityUnocc].
  destruct (ve_vent_rate_flag (pa_ventilation p)) as [|[q|q|]|q]; try reflexivity; rewrite zn_fin, sub_fin, mul_fin, div_fin', add_fin by exact H; reflexivity.
Qed.
Lemma mech_fin p x : vent_ok p -> mechanicalFlow (map_params Fin p) (Fin x) = Fin (mechanicalFlow p x).
Proof.
  intros V. unfold mechanicalFlow. rewrite ventFraction_fin, supply_fin by apply V.
  cbn [map_params pa_ventilation map_ventilation ve_type ve_exhaustAirRecirculated ve_heatRecoveryEfficiency]. rewrite !zn_fin, eqb_fin, !sub_fin, !mul_fin, if_fin. reflexivity.
Qed.
Lemma ventCoef_fin p wk a b c : vent_ok p -> ventilationCoefficient (map_params Fin p) (Fin wk) (Fin a) (Fin b) (Fin c) = Fin (ventilationCoefficient p wk a b c).
Proof.
  intros V. unfold ventilationCoefficient. rewrite stack_fin, wind_fin, infil_fin, mech_fin by (exact V || apply V).
  cbn [map_params pa_phys map_phys ph_rhoCpAir]. rewrite !zn_fin, add_fin, !mul_fin, sdiv_fin. reflexivity.
Qed.
Lemma vent_fin p w wk t : vent_ok p -> ventilationCalc (map_params Fin p) (fin_weather w) (Fin wk) (map Fin t) = map Fin (ventilationCalc p w wk t).
Proof.
  intros V. unfold ventilationCalc, fin_weather. cbn [mw_mdbt mw_mwind]. generalize (mw_mdbt w) (mw_mwind w). revert t.
  intros t a. revert t. induction a as [|x a IH]; intros [|y t] [|z b]; cbn [map zipw]; try reflexivity. now rewrite ventCoef_fin, IH.
Qed.
Lemma sound_vent p : sound p -> vent_ok p.
Proof. intros S. constructor; try apply S; apply Rgt_not_eq; apply S. Qed.

(** *** Facts about sound buildings *)
Lemma vsum_R l : @vsum R _ l = Rsum l.
Proof. unfold vsum, Rsum. rewrite accumulate_R. induction l as [|x l IH]; cbn [fold_left fold_right]; [reflexivity|]. rewrite fold_add_acc, IH. lra. Qed.
Lemma dot_R a b : Rsum (vmul a b) = dot a b.
Proof.
  revert b. induction a as [|x a IH]; intros [|y b]; try reflexivity. change (x * y + Rsum (vmul a b) = x * y + dot a b). now rewrite IH.
Qed.
Lemma sum_vadd a b : length a = length b -> Rsum (vadd a b) = Rsum a + Rsum b.
Proof.
  revert b. induction a as [|x a IH]; intros [|y b] L; try discriminate L; [unfold Rsum; cbn; lra|].
  change (x + y + Rsum (vadd a b) = (x + Rsum a) + (y + Rsum b)). rewrite IH by (cbn in L; congruence). lra.
Qed.
Lemma UA_R (s : structure_t R) : nine_surfaces s -> envelopeUA s = envelope_UA s.
Proof.
  intros H. unfold envelopeUA, envelope_UA. rewrite vsum_R, sum_vadd, !dot_R, zn_R; [ops; lra|]. unfold vmul. rewrite !zipw_length, !H; cbn; tauto.
Qed.
Lemma cap_R (p : params_t R) H : timeConstant p H = heat_capacity (pa_structure p) / H / 3600.
Proof. unfold timeConstant, heat_capacity. rewrite vsum_R, zn_R. reflexivity. Qed.
Lemma sound_occ p : sound p -> let oc := scheduleAndOccupancy (pa_population p) in
  oc_hoursOcc oc = day_length (pa_population p) /\ oc_hoursUnocc oc = 24 - day_length (pa_population p) /\
  oc_wk_day oc = day_length (pa_population p) * week_days (pa_population p) / 168 /\ 0 <= oc_wk_day oc < 1.
Proof.
  intros S oc. unfold oc, scheduleAndOccupancy, hoursInWeek. cbn [oc_hoursOcc oc_hoursUnocc oc_wk_day]. rewrite day_length_eq, week_days_eq, !zn_R. ops.
  split; [reflexivity|]. split; [reflexivity|]. split; [reflexivity|]. pose proof (so_hours p S) as H. pose proof (so_days p S) as D.
  set (h := day_length _) in *. set (d := week_days _) in *. split.
  - unfold Rdiv. apply Rmult_le_pos; [apply Rmult_le_pos; lra|lra].
  - assert (h * d <= h * 7) by (apply Rmult_le_compat_l; lra). lra.
Qed.

Lemma tables_fin w : full_tables (fin_weather w) -> full_tables w.
Proof.
  unfold full_tables, fin_weather. cbn [mw_msolar mw_mhdbt mw_mhEgh mw_mEgh mw_mdbt mw_mwind]. rewrite !map_length.
  assert (G : forall (l : list (list R)) n, (forall r, In r (map (map Fin) l) -> length r = n) -> forall r, In r l -> length r = n).
  { intros l n H r I. rewrite <- (map_length Fin). apply H. now apply in_map. }
  intros ((A & A') & (B & B') & (C & C') & D). repeat split; eauto; apply D.
Qed.
Lemma sun_fin w : sun_every_month (fin_weather w) -> sun_every_month w.
Proof.
  intros H row I. destruct (H (map Fin row) (in_map (map Fin) _ _ I)) as (x & J & E). apply in_map_iff in J. destruct J as (r & <- & J).
  exists r. split; [exact J|]. rewrite zn_fin, eqb_fin in E. exact E.
Qed.
Lemma fmap_ok {A B} (f : A -> B) o b : fmap f o = Ok b -> exists a, o = Ok a /\ b = f a.
Proof. destruct o; intros H; try discriminate H. injection H as <-. eauto. Qed.

Record fin_run (m : mresult xr) (r : mresult R) : Prop := {
  fr_occ : mr_occ m = fin_oc (mr_occ r); fr_bd : mr_bd m = fin_bd (mr_bd r); fr_lu : mr_lu m = fin_lu (mr_lu r); fr_H : mr_H_tr m = Fin (mr_H_tr r);
  fr_sol : mr_Esol m = map Fin (mr_Esol r); fr_gains : mr_gains m = fin_gains (mr_gains r); fr_temps : mr_temps m = fin_temps (mr_temps r);
  fr_Hve_ht : mr_Hve_ht m = map Fin (mr_Hve_ht r); fr_Hve_cl : mr_Hve_cl m = map Fin (mr_Hve_cl r) }.
Lemma run_fin p w m : sound p -> run (map_params Fin p) (fin_weather w) m -> exists r, run p w r /\ fin_run m r.
Proof.
  intros S M.
  assert (E : exists r, monthlyAll p w = Ok r).
  { apply monthlyAll_iff. split; [apply S|]. split; [apply tables_fin, M|]. split; [|split; apply S]. apply sun_fin.
    apply (breakdown_iff (mr_occ m)). eexists. apply (rn_bd _ _ _ M). }
  destruct E as [r E]. apply monthlyAll_run in E. exists r. split; [exact E|].
  pose proof (sound_occ p S) as (O1 & O2 & O3 & O4). cbv zeta in *.
  pose proof (sound_vent p S) as V. pose proof (so_hours p S) as SH.
  assert (Foc : mr_occ m = fin_oc (mr_occ r)). { rewrite (rn_oc _ _ _ M), (rn_oc _ _ _ E). apply oc_fin. }
  assert (Fbd : mr_bd m = fin_bd (mr_bd r)).
  { pose proof (rn_bd _ _ _ M) as B. rewrite Foc, (rn_oc _ _ _ E), bd_fin in B.
    - rewrite <- (rn_oc _ _ _ E), (rn_bd _ _ _ E) in B. cbn [fmap] in B. apply ok_inj in B. now symmetry.
    - cbn [scheduleAndOccupancy oc_clockOcc]. rewrite !zn_R. refine (proj1 (mask_sum (hoursPerDay (pa_population p)) _)). rewrite day_length_eq. lra.
    - cbn [scheduleAndOccupancy oc_clockUnocc]. rewrite !zn_R. refine (proj2 (mask_sum (hoursPerDay (pa_population p)) _)). rewrite day_length_eq. lra. }
  assert (Flu : mr_lu m = fin_lu (mr_lu r)). { rewrite (rn_lu _ _ _ M), (rn_lu _ _ _ E), Fbd. apply lu_fin. }
  assert (FH : mr_H_tr m = Fin (mr_H_tr r)). { rewrite (rn_H _ _ _ M), (rn_H _ _ _ E). apply UA_fin. }
  assert (Fsol : mr_Esol m = map Fin (mr_Esol r)).
  { destruct (rn_sol _ _ _ M) as (ws & W & ->). destruct (rn_sol _ _ _ E) as (ws' & W' & ->). cbn [map_params pa_structure] in *.
    rewrite windowSolar_fin, W' in W. cbn [fmap] in W. apply ok_inj in W. subst ws. apply solarGain_fin. }
  assert (Fg : mr_gains m = fin_gains (mr_gains r)).
  { rewrite (rn_gains _ _ _ M), (rn_gains _ _ _ E), Flu, Foc. cbn [fin_oc oc_wk_day]. apply gains_fin; try (apply Rgt_not_eq; apply S). rewrite (rn_oc _ _ _ E). lra. }
  assert (HH : mr_H_tr r + ve_H_ve (pa_ventilation p) = envelope_UA (pa_structure p) + ve_H_ve (pa_ventilation p)).
  { rewrite (rn_H _ _ _ E), UA_R by apply S. reflexivity. }
  assert (Ft : mr_temps m = fin_temps (mr_temps r)).
  { pose proof (rn_temps _ _ _ M) as B. cbv zeta in B. rewrite Foc, Fbd, FH, Fsol, Fg in B. cbn [map_params pa_structure fin_gains ga_unocc fin_oc oc_wkUnocc oc_weOcc oc_weUnocc fin_bd bd_wk_nt bd_wke_day bd_wke_nt] in B.
    rewrite !unocc_fin in B. change (mkParams _ _ _ _ _ _ _ _ _ _) with (map_params Fin p) in B. fold (fin_oc (mr_occ r)) in B. fold (fin_bd (mr_bd r)) in B.
    rewrite temps_fin in B.
    - rewrite (rn_temps _ _ _ E) in B. cbn [fmap] in B. apply ok_inj in B. now symmetry.
    - rewrite HH. apply Rgt_not_eq, S.
    - rewrite HH, cap_R. pose proof (so_cap p S). pose proof (so_loss p S). apply Rgt_not_eq. unfold Rdiv. apply Rmult_lt_0_compat; [apply Rmult_lt_0_compat; [assumption|now apply Rinv_0_lt_compat]|lra].
    - rewrite (rn_oc _ _ _ E), O2. lra.
    - rewrite (rn_oc _ _ _ E), O1. lra. }
  constructor; try assumption.
  - rewrite (rn_Hve_ht _ _ _ M), (rn_Hve_ht _ _ _ E), Ft, Foc. cbn [fin_oc oc_wk_day fin_temps te_h]. now apply vent_fin.
  - rewrite (rn_Hve_cl _ _ _ M), (rn_Hve_cl _ _ _ E), Ft, Foc. cbn [fin_oc oc_wk_day fin_temps te_c]. now apply vent_fin.
Qed.
