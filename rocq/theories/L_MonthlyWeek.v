(** Room temperatures of the monthly engine equal their specification. *)
From Coq Require Import Reals Lra Psatz ZArith List Bool Lia Ranalysis1.
From Verif Require Import Base Num Xr M_Params M_Hourly M_Monthly M_Map L_Xr L_HourlyShape L_HourlyFin2 S_Calendar S_Schedule S_Results S_Monthly
  S_MonthlySound S_MonthlyHeat S_MonthlyPlant S_Physical S_MonthlyBalance S_MonthlyTemp L_Monthly L_Monthly2 L_Monthly3 L_Monthly4 L_Monthly5 L_Monthly6 L_MonthlyFin L_MonthlyFin2 L_MonthlyGain L_MonthlyVent L_MonthlyNeed L_MonthlyTemp L_MonthlyPlant L_MonthlyPlant2 L_MonthlyBalance.
Import ListNotations.
Open Scope R_scope.

(** *** Newton's law *)
Lemma decayEnd_after tau s (q : period R) : decayEnd tau s q = after tau (pe_Te q + pe_dT q) (pe_t q) s.
Proof. unfold decayEnd, after. rewrite zn_R. ops. replace (Ropp 1 * pe_t q / tau) with (- (pe_t q / tau)) by (unfold Rdiv; ring). ring. Qed.
Lemma decayMean_over tau s (q : period R) : decayMean tau s q = mean_over tau (pe_Te q + pe_dT q) (pe_t q) s.
Proof. unfold decayMean, mean_over. rewrite !zn_R. ops. replace (Ropp 1 * pe_t q / tau) with (- (pe_t q / tau)) by (unfold Rdiv; ring). ring. Qed.
Lemma zero_derivative f : (forall x, derivable_pt_lim f x 0) -> forall x y, f x = f y.
Proof.
  intros H x y. assert (D : derivable f) by (intros z; exists 0; apply H). apply (null_derivative_1 f D). intros z. unfold derive. now apply derive_pt_eq_0.
Qed.
Lemma exp_scaled tau x : tau <> 0 -> derivable_pt_lim (fun x => exp (x / tau)) x (exp (x / tau) / tau).
Proof.
  intros T. replace (exp (x / tau) / tau) with (exp (x / tau) * (1 / tau)) by (unfold Rdiv; ring).
  apply (derivable_pt_lim_comp (fun x => x / tau) exp); [|apply derivable_pt_lim_exp].
  replace (1 / tau) with (1 * / tau + x * 0) by (unfold Rdiv; ring). apply (derivable_pt_lim_mult id (fun _ => / tau)); [apply derivable_pt_lim_id|apply derivable_pt_lim_const].
Qed.
Lemma floats_after tau eq f : tau <> 0 -> floats tau eq f -> forall t, f t = after tau eq t (f 0).
Proof.
  intros T F t. set (g := fun x => (f x - eq) * exp (x / tau)).
  assert (G : forall x, derivable_pt_lim g x 0).
  { intros x. replace 0 with (((eq - f x) / tau - 0) * exp (x / tau) + (f x - eq) * (exp (x / tau) / tau)) by (field; exact T).
    apply (derivable_pt_lim_mult (fun x => f x - eq) (fun x => exp (x / tau))); [|now apply exp_scaled].
    apply (derivable_pt_lim_minus f (fun _ => eq)); [apply F|apply derivable_pt_lim_const]. }
  pose proof (zero_derivative g G t 0) as E. unfold g in E. replace (0 / tau) with 0 in E by (unfold Rdiv; ring). rewrite exp_0 in E. unfold after.
  rewrite exp_Ropp. pose proof (exp_pos (t / tau)). apply Rmult_eq_reg_r with (exp (t / tau)); [|lra]. field_simplify; [|lra]. lra.
Qed.
Lemma after_floats tau eq s : tau <> 0 -> floats tau eq (fun t => after tau eq t s).
Proof.
  intros T x. unfold after. replace ((eq - (eq + (s - eq) * exp (- (x / tau)))) / tau) with (0 + ((s - eq) * (exp (- (x / tau)) * (- (1 / tau))))) by (unfold Rdiv; ring).
  apply (derivable_pt_lim_plus (fun _ => eq) (fun t => (s - eq) * exp (- (t / tau)))); [apply derivable_pt_lim_const|].
  apply (derivable_pt_lim_scal (fun t => exp (- (t / tau)))). apply (derivable_pt_lim_comp (fun x => - (x / tau)) exp); [|apply derivable_pt_lim_exp].
  apply (derivable_pt_lim_opp (fun x => x / tau)). replace (1 / tau) with (1 * / tau + x * 0) by (unfold Rdiv; ring). apply (derivable_pt_lim_mult id (fun _ => / tau)); [apply derivable_pt_lim_id|apply derivable_pt_lim_const].
Qed.
(** The primitive of the temperature. *)
Lemma mean_primitive tau eq s f F t : 0 < tau -> 0 < t -> floats tau eq f -> f 0 = s -> (forall x, derivable_pt_lim F x (f x)) -> mean_over tau eq t s = (F t - F 0) / t.
Proof.
  intros P T L S D. assert (N : tau <> 0) by lra. set (g := fun x => F x + tau * f x - eq * x).
  assert (G : forall x, derivable_pt_lim g x 0).
  { intros x. replace 0 with (f x + tau * ((eq - f x) / tau) - eq * 1) by (field; exact N).
    apply (derivable_pt_lim_minus (fun x => F x + tau * f x) (fun x => eq * x)); [apply (derivable_pt_lim_plus F (fun x => tau * f x)); [apply D|apply (derivable_pt_lim_scal f), L]|apply (derivable_pt_lim_scal id), derivable_pt_lim_id]. }
  pose proof (zero_derivative g G t 0) as E. unfold g in E. rewrite (floats_after tau eq f N L t), S in E. unfold mean_over. unfold after in E. assert (Q : F t - F 0 = tau * s - tau * (eq + (s - eq) * exp (- (t / tau))) + eq * t) by lra.
  rewrite Q. field. lra.
Qed.
Lemma C32_law_l tau s t te dt : 0 < tau -> 0 <= t -> exists r, decayEnd (Fin tau) (Fin s) (mkPeriod (Fin t) (Fin te) (Fin dt)) = Fin r /\
  (forall f, floats tau (te + dt) f -> f 0 = s -> r = f t) /\ exists f, floats tau (te + dt) f /\ f 0 = s.
Proof.
  intros P T. assert (N : tau <> 0) by lra. change (mkPeriod (Fin t) (Fin te) (Fin dt)) with (fin_period (mkPeriod t te dt)). rewrite decayEnd_fin by exact N. rewrite decayEnd_after. cbn [pe_Te pe_dT pe_t].
  eexists. split; [reflexivity|]. split.
  - intros f F S. rewrite <- S. symmetry. now apply floats_after.
  - exists (fun t => after tau (te + dt) t s). split; [now apply after_floats|]. unfold after. replace (0 / tau) with 0 by (unfold Rdiv; ring). rewrite Ropp_0, exp_0. ring.
Qed.
Lemma C32_mean_law_l tau s t te dt : 0 < tau -> 0 < t -> exists r, decayMean (Fin tau) (Fin s) (mkPeriod (Fin t) (Fin te) (Fin dt)) = Fin r /\
  forall f F, floats tau (te + dt) f -> f 0 = s -> (forall x, derivable_pt_lim F x (f x)) -> r = (F t - F 0) / t.
Proof.
  intros P T. change (mkPeriod (Fin t) (Fin te) (Fin dt)) with (fin_period (mkPeriod t te dt)). rewrite decayMean_fin by (cbn [pe_t]; lra). rewrite decayMean_over. cbn [pe_Te pe_dT pe_t].
  eexists. split; [reflexivity|]. intros f F L S D. now apply mean_primitive with (f := f).
Qed.

(** *** The week *)
Lemma nth_zip5 {T} (f : T -> T -> T -> T -> T -> list (period T)) a b c d e i xa xb xc xd xe : nth_error a i = Some xa -> nth_error b i = Some xb -> nth_error c i = Some xc -> nth_error d i = Some xd -> nth_error e i = Some xe ->
  nth_error (zip5 f a b c d e) i = Some (f xa xb xc xd xe).
Proof.
  intros A B C D E. unfold zip5. apply (nth_zipw (fun f x => f x) _ _ i (f xa xb xc xd)); [|exact E]. apply (nth_zipw (fun f x => f x) _ _ i (f xa xb xc)); [|exact D].
  apply (nth_zipw (fun f x => f x) _ _ i (f xa xb)); [|exact C]. now apply nth_zipw.
Qed.
Lemma idle_R p w r : sound p -> day_schedule p -> run p w r -> ga_unocc (mr_gains r) = idle_gain p.
Proof.
  intros S D E. rewrite (rn_gains _ _ _ E), (rn_lu _ _ _ E), (rn_oc _ _ _ E). pose proof (sound_occ p S) as (_ & _ & O & W). cbv zeta in O, W. rewrite O in W.
  change (day_length (pa_population p) * week_days (pa_population p) / 168) with (occupied_share (pa_population p)) in *.
  destruct (light_hours p D) as (_ & _ & L & _). cbv zeta in L. change (lightHoursD p + lightHoursN p = open_hours p * open_days p) in L.
  unfold heatGainsAndLosses, lightingEnergyUse, hoursInYear. cbn [ga_unocc lu_unocc]. rewrite O, !zn_R. ops. unfold idle_gain, gain_unoccupied. rewrite <- L. change (lightDayHours (pa_lighting p) (pa_population p)) with (lightHoursD p). change (lightNightHours (pa_lighting p) (pa_population p)) with (lightHoursN p).
  pose proof (so_area p S). pose proof (so_dens2 p S). field. repeat split; lra.
Qed.
Lemma power_at (s : structure_t R) (phi : R) ms fr sol i m f e : nth_error ms i = Some m -> nth_error fr i = Some f -> nth_error sol i = Some e -> m <> 0 ->
  nth_error (unoccupiedHeatGain s phi ms fr sol) i = Some (st_floorArea s * phi + e * f / m).
Proof.
  intros A B C N. unfold unoccupiedHeatGain, vdiv. rewrite (nth_zipw _ _ _ _ (m * (phi * st_floorArea s) + e * f) m); [| |exact A].
  - rewrite sdiv_R by exact N. f_equal. field. exact N.
  - unfold vadd. apply nth_zipw; [now apply scale_at|]. unfold vmul. now apply nth_zipw.
Qed.
Lemma periods_R p w r i : sound p -> week_case p w -> run p w r -> (i < 12)%nat ->
  exists a b c, nth_error (bd_Tnt (mr_bd r)) i = Some (night_mean (day_length (pa_population p)) (nth i (mw_mhdbt w) [])) /\
  nth_error (bd_Tday (mr_bd r)) i = Some (day_mean (day_length (pa_population p)) (nth i (mw_mhdbt w) [])) /\
  nth_error (unoccupiedHeatGain (pa_structure p) (ga_unocc (mr_gains r)) (oc_wkUnocc (mr_occ r)) (bd_wk_nt (mr_bd r)) (mr_Esol r)) i = Some a /\
  nth_error (unoccupiedHeatGain (pa_structure p) (ga_unocc (mr_gains r)) (oc_weOcc (mr_occ r)) (bd_wke_day (mr_bd r)) (mr_Esol r)) i = Some b /\
  nth_error (unoccupiedHeatGain (pa_structure p) (ga_unocc (mr_gains r)) (oc_weUnocc (mr_occ r)) (bd_wke_nt (mr_bd r)) (mr_Esol r)) i = Some c /\
  sp_out (week_night p w i) + a / room_loss p = target p w i (week_night p w i) /\
  sp_out (weekend_day p w i) + b / room_loss p = target p w i (weekend_day p w i) /\
  sp_out (weekend_night p w i) + c / room_loss p = target p w i (weekend_night p w i).
Proof.
  intros S [D W SU] E I. pose proof (rn_tab _ _ _ E) as T. pose proof T as (_ & (T1 & T2) & (T3 & T4) & _). pose proof (so_hours p S) as HH.
  destruct (nth_some _ i _ T1 I) as [air AIR]. destruct (nth_some _ i _ T3 I) as [sun SUN]. pose proof (T2 _ (nth_error_In _ _ AIR)) as LA.
  pose proof (rn_bd _ _ _ E) as B. rewrite (rn_oc _ _ _ E) in B.
  assert (P : 0 < sun_week (day_length (pa_population p)) sun).
  { assert (Y : sun_every_month w) by (apply (breakdown_iff (scheduleAndOccupancy (pa_population p))); eauto). pose proof (nth_error_In _ _ SUN) as J. destruct (Y sun J) as (x & X & Z). rewrite zn_R in Z.
    cbn [neqb R_num] in Z. apply (sun_pos _ _ x HH (SU sun J) X). intros ->. rewrite Reqb_true in Z by reflexivity. discriminate Z. }
  destruct (breakdown_at _ _ _ _ _ HH T B SUN P) as (B1 & B2 & B3). cbv zeta in B1, B2, B3.
  assert (TN : nth_error (bd_Tnt (mr_bd r)) i = Some (night_mean (day_length (pa_population p)) air) /\ nth_error (bd_Tday (mr_bd r)) i = Some (day_mean (day_length (pa_population p)) air)).
  { unfold solarRadiationBreakdown in B. cbv zeta in B. destruct (omap _ _) as [dn| |]; [cbn [obind] in B|discriminate B|discriminate B]. apply ok_inj in B. rewrite <- B. cbn [bd_Tnt bd_Tday].
    unfold scheduleAndOccupancy. cbn [oc_clockOcc oc_clockUnocc]. rewrite !zn_R, day_length_eq.
    pose proof (mean_at _ (clockMask (day_length (pa_population p)) 1 0) _ _ AIR) as M1. pose proof (mean_at _ (clockMask (day_length (pa_population p)) 0 1) _ _ AIR) as M2.
    rewrite day_row in M1 by exact LA. rewrite night_row in M2 by exact LA. now split. }
  destruct TN as [TN TD]. pose proof (mega_nth i I) as M. pose proof (mega_pos i I) as MP.
  destruct (rn_sol _ _ _ E) as (ws & WS & ES). assert (SOL := solar_month _ _ _ _ (so_surf p S) (so_sdf p S) T WS I). rewrite <- ES in SOL.
  rewrite (idle_R p w r S D E), (rn_oc _ _ _ E).
  assert (O1 : nth_error (oc_wkUnocc (scheduleAndOccupancy (pa_population p))) i = Some (month_megaseconds i * sp_part (week_night p w i))).
  { unfold scheduleAndOccupancy, hoursInWeek. cbn [oc_wkUnocc]. rewrite day_length_eq, week_days_eq, !zn_R. rewrite (scale_at _ _ _ _ M). f_equal. ops. unfold week_night. cbn [sp_part]. field. }
  assert (O2 : nth_error (oc_weOcc (scheduleAndOccupancy (pa_population p))) i = Some (month_megaseconds i * sp_part (weekend_day p w i))).
  { unfold scheduleAndOccupancy, hoursInWeek. cbn [oc_weOcc]. rewrite day_length_eq, week_days_eq, !zn_R. rewrite (scale_at _ _ _ _ M). f_equal. ops. unfold weekend_day. cbn [sp_part]. field. }
  assert (O3 : nth_error (oc_weUnocc (scheduleAndOccupancy (pa_population p))) i = Some (month_megaseconds i * sp_part (weekend_night p w i))).
  { unfold scheduleAndOccupancy, hoursInWeek. cbn [oc_weUnocc]. rewrite day_length_eq, week_days_eq, !zn_R. rewrite (scale_at _ _ _ _ M). f_equal. ops. unfold weekend_night. cbn [sp_part]. field. }
  assert (N1 : 0 < sp_part (week_night p w i)) by (unfold week_night; cbn [sp_part]; apply Rmult_lt_0_compat; [apply Rmult_lt_0_compat|]; lra).
  assert (N2 : 0 < sp_part (weekend_day p w i)) by (unfold weekend_day; cbn [sp_part]; apply Rmult_lt_0_compat; [apply Rmult_lt_0_compat|]; lra).
  assert (N3 : 0 < sp_part (weekend_night p w i)) by (unfold weekend_night; cbn [sp_part]; apply Rmult_lt_0_compat; [apply Rmult_lt_0_compat|]; lra).
  assert (Q : forall x, 0 < x -> month_megaseconds i * x <> 0) by (intros x X; apply Rgt_not_eq, Rmult_lt_0_compat; lra).
  do 3 eexists. rewrite (nth_error_nth _ _ [] AIR). split; [exact TN|]. split; [exact TD|].
  split; [exact (power_at _ _ _ _ _ _ _ _ _ O1 B1 SOL (Q _ N1))|]. split; [exact (power_at _ _ _ _ _ _ _ _ _ O2 B2 SOL (Q _ N2))|]. split; [exact (power_at _ _ _ _ _ _ _ _ _ O3 B3 SOL (Q _ N3))|].
  unfold target. unfold week_night, weekend_day, weekend_night. cbn [sp_out sp_sun sp_part]. rewrite (nth_error_nth _ _ [] SUN). repeat split; reflexivity.
Qed.
Lemma week_R p w r i z : sound p -> week_case p w -> ntrunc (bu_bem (pa_building p)) = Some z -> run p w r -> (i < 12)%nat ->
  let ch := ht_tempOcc (pa_heating p) - bem_relief z in let cc := cl_tempOcc (pa_cooling p) + bem_relief z in
  (ht_T_ctrl_flag (pa_heating p) = 1 -> nth_error (te_h (mr_temps r)) i = Some (week_temperature p w i 1 ch ch (ht_tempUnocc (pa_heating p)))) /\
  (cl_T_ctrl_flag (pa_cooling p) = 1 -> nth_error (te_c (mr_temps r)) i = Some (week_temperature p w i 1 (Rmin ch (cl_tempUnocc (pa_cooling p))) cc (cl_tempUnocc (pa_cooling p)))).
Proof.
  intros S WC Z E I ch cc. pose proof (rn_temps _ _ _ E) as B. cbv zeta in B. unfold interiorTemp in B. rewrite (relief p z Z) in B. cbn [obind] in B. apply ok_inj in B.
  destruct (periods_R p w r i S WC E I) as (a & b & c & TN & TD & PA & PB & PC & QA & QB & QC).
  match type of B with {| te_h := map ?f ?q; te_c := map ?g _; te_tau := _ |} = _ => set (qs := q) in B end.
  pose proof (nth_zip5 (periods (mr_occ r) (mr_H_tr r + ve_H_ve (pa_ventilation p))) _ _ _ _ _ i _ _ _ _ _ TN TD PA PB PC) as NQ.
  change (zip5 _ _ _ _ _ _) with qs in NQ. clearbody qs.
  assert (HL : mr_H_tr r + ve_H_ve (pa_ventilation p) = room_loss p) by (rewrite (rn_H _ _ _ E), UA_R by apply S; reflexivity). rewrite HL in NQ.
  assert (TA : timeConstant p (nadd (mr_H_tr r) (ve_H_ve (pa_ventilation p))) = room_tau p). { change (nadd (mr_H_tr r) (ve_H_ve (pa_ventilation p))) with (mr_H_tr r + ve_H_ve (pa_ventilation p)). rewrite HL, cap_R. reflexivity. }
  pose proof (sound_occ p S) as (O1 & O2 & O3 & _). cbv zeta in *. rewrite (rn_oc _ _ _ E) in NQ.
  assert (WN : oc_wk_nt (scheduleAndOccupancy (pa_population p)) = sp_part (week_night p w i)).
  { unfold scheduleAndOccupancy, hoursInWeek. cbn [oc_wk_nt]. rewrite day_length_eq, week_days_eq, !zn_R. ops. unfold week_night. cbn [sp_part]. field. }
  pose proof (weights_sum (pa_population p)) as WS. cbv zeta in WS. rewrite O3, WN in WS. change (day_length (pa_population p) * week_days (pa_population p) / 168) with (occupied_share (pa_population p)) in *.
  assert (G : forall s0 c0 u, weekMean (scheduleAndOccupancy (pa_population p)) c0 1
      (zipw (fun start q => nmax (decayMean (room_tau p) start q) u) (s0 :: map (fun x => nmax x u) (decayChain (room_tau p) c0 (firstn 4
         (periods (scheduleAndOccupancy (pa_population p)) (room_loss p) (night_mean (day_length (pa_population p)) (nth i (mw_mhdbt w) [])) (day_mean (day_length (pa_population p)) (nth i (mw_mhdbt w) [])) a b c))))
         (periods (scheduleAndOccupancy (pa_population p)) (room_loss p) (night_mean (day_length (pa_population p)) (nth i (mw_mhdbt w) [])) (day_mean (day_length (pa_population p)) (nth i (mw_mhdbt w) [])) a b c))
      = week_temperature p w i 1 s0 c0 u).
  { intros s0 c0 u. unfold periods. cbn [firstn decayChain map zipw]. rewrite !decayMean_over, !decayEnd_after, O1, O2. cbn [pe_t pe_Te pe_dT]. rewrite !nmax_R.
    change (nth i (mw_mhdbt w) []) with (nth i (mw_mhdbt w) []) in *. change (ndiv a (room_loss p)) with (a / room_loss p). change (ndiv b (room_loss p)) with (b / room_loss p). change (ndiv c (room_loss p)) with (c / room_loss p).
    change (night_mean (day_length (pa_population p)) (nth i (mw_mhdbt w) []) + a / room_loss p) with (sp_out (week_night p w i) + a / room_loss p).
    change (night_mean (day_length (pa_population p)) (nth i (mw_mhdbt w) []) + c / room_loss p) with (sp_out (weekend_night p w i) + c / room_loss p).
    change (day_mean (day_length (pa_population p)) (nth i (mw_mhdbt w) []) + b / room_loss p) with (sp_out (weekend_day p w i) + b / room_loss p). rewrite QA, QB, QC.
    unfold week_temperature, span_means, weekend_spans. cbn [drift combine map fst snd]. unfold weekMean, accumulate. cbn [fold_left nth]. rewrite !zn_R. ops. rewrite !Reqb_true by reflexivity. rewrite O3, WN.
    replace (oc_wke_tot (scheduleAndOccupancy (pa_population p))) with (1 - occupied_share (pa_population p) - sp_part (week_night p w i)) by lra.
    change (sp_hours (week_night p w i)) with (24 - day_length (pa_population p)). change (sp_hours (weekend_night p w i)) with (24 - day_length (pa_population p)). change (sp_hours (weekend_day p w i)) with (day_length (pa_population p)).
    unfold held_mean. cbn [sp_hours week_night weekend_day weekend_night]. unfold Rsum. cbn [fold_right]. apply f_equal2; [|reflexivity]. apply f_equal2; [reflexivity|]. apply f_equal2; [|reflexivity]. apply f_equal2; [|reflexivity]. rewrite ?Rplus_0_l, ?Rplus_0_r, ?Rplus_assoc. reflexivity. }
  split; intros FL; rewrite <- B; cbn [te_h te_c]; rewrite nth_error_map, NQ; cbn [option_map]; f_equal.
  - rewrite (rn_oc _ _ _ E), TA, FL. unfold heatingPeriods. apply G.
  - rewrite (rn_oc _ _ _ E), TA, FL. unfold coolingPeriods. rewrite nmin_R. apply G.
Qed.
