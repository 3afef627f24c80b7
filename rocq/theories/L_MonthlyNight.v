(** Set-backs of heating outside working hours. *)
From Coq Require Import Reals Lra Psatz ZArith List Bool Lia.
From Verif Require Import Base Num Xr M_Params M_Hourly M_Monthly M_Map L_Xr L_HourlyShape L_HourlyFin2 S_Calendar S_Schedule S_Results S_Monthly
  S_MonthlySound S_MonthlyHeat S_MonthlyPlant S_Physical S_MonthlyBalance S_MonthlyTemp L_Monthly L_Monthly2 L_Monthly3 L_Monthly4 L_Monthly5 L_Monthly6 L_MonthlyFin L_MonthlyFin2 L_MonthlyGain L_MonthlyVent L_MonthlyNeed L_MonthlyTemp L_MonthlyPlant
  L_MonthlyCase L_MonthlyBalance L_MonthlyWeek E_SmallOffice E_Monthly E_House E_NightHouse L_MonthlyHouse L_MonthlyHouse2.
Import ListNotations.
Open Scope R_scope.

(** *** The temperatures of the engine *)
Lemma C67_l p w m z i : sound p -> week_case p w -> ntrunc (bu_bem (pa_building p)) = Some z -> monthlyAll (map_params Fin p) (fin_weather w) = Ok m -> (i < 12)%nat ->
  let ch := ht_tempOcc (pa_heating p) - bem_relief z in let cc := cl_tempOcc (pa_cooling p) + bem_relief z in
  (ht_T_ctrl_flag (pa_heating p) = 1 -> nth_error (te_h (mr_temps m)) i = Some (Fin (week_temperature p w i 1 ch ch (ht_tempUnocc (pa_heating p))))) /\
  (cl_T_ctrl_flag (pa_cooling p) = 1 -> nth_error (te_c (mr_temps m)) i = Some (Fin (week_temperature p w i 1 (Rmin ch (cl_tempUnocc (pa_cooling p))) cc (cl_tempUnocc (pa_cooling p))))).
Proof.
  intros S W Z M I ch cc. apply monthlyAll_run in M. destruct (run_fin _ _ _ S M) as (r & E & F). destruct (week_R p w r i z S W Z E I) as [A B]. cbv zeta in A, B.
  rewrite (fr_temps _ _ F). cbn [fin_temps te_h te_c]. rewrite !nth_error_map. split; intros FL; [rewrite (A FL)|rewrite (B FL)]; reflexivity.
Qed.

(** *** Cooling down *)
Lemma exp_mean x : 0 < x -> exp (- x) < (1 - exp (- x)) / x < 1.
Proof.
  intros P. assert (A : 1 + x < exp x) by (apply exp_ineq1; lra). assert (B : 1 + - x < exp (- x)) by (apply exp_ineq1; lra). pose proof (exp_pos (- x)) as C.
  assert (D : exp (- x) * exp x = 1) by (rewrite <- exp_plus; replace (- x + x) with 0 by ring; apply exp_0).
  assert (F : exp (- x) * (1 + x) < 1) by (rewrite <- D; apply Rmult_lt_compat_l; lra).
  split; apply Rmult_lt_reg_r with x; try lra; unfold Rdiv; rewrite Rmult_assoc, Rinv_l by lra; lra.
Qed.
Lemma cooling tau eq h s : 0 < tau -> 0 < h -> eq < s -> eq < after tau eq h s < mean_over tau eq h s /\ mean_over tau eq h s < s.
Proof.
  intros T H S. assert (X : 0 < h / tau) by (apply Rmult_lt_0_compat; [lra|now apply Rinv_0_lt_compat]). destruct (exp_mean _ X) as [A B]. pose proof (exp_pos (- (h / tau))) as C. unfold after, mean_over.
  replace ((1 - exp (- (h / tau))) / (h / tau)) with (tau / h * (1 - exp (- (h / tau)))) in A, B by (field; split; lra).
  set (e := exp (- (h / tau))) in *. set (k := tau / h * (1 - e)) in *. replace ((s - eq) * (tau / h) * (1 - e)) with ((s - eq) * k) by (unfold k; ring).
  assert (0 < (s - eq) * e) by (apply Rmult_lt_0_compat; lra). assert ((s - eq) * e < (s - eq) * k) by (apply Rmult_lt_compat_l; lra). assert ((s - eq) * k < (s - eq) * 1) by (apply Rmult_lt_compat_l; lra). lra.
Qed.
(** With a common target [u] below the set-point, the mean of the first night is above the mean of the day after. *)
Lemma night_matters p w i c u : sound p -> 1 < week_days (pa_population p) < 7 -> u < c ->
  target p w i (week_night p w i) = u -> target p w i (weekend_day p w i) = u -> target p w i (weekend_night p w i) = u ->
  week_temperature p w i 1 c c u < week_temperature p w i 0 c c u.
Proof.
  intros S D U A B C. unfold week_temperature, span_means, weekend_spans. cbn [drift combine map fst snd nth]. rewrite A, B, C. unfold held_mean. rewrite ?A, ?B, ?C.
  pose proof (so_hours p S) as H. assert (T : 0 < room_tau p).
  { unfold room_tau, room_loss. pose proof (so_cap p S). pose proof (so_loss p S). unfold Rdiv. apply Rmult_lt_0_compat; [apply Rmult_lt_0_compat; [assumption|now apply Rinv_0_lt_compat]|lra]. }
  assert (Hd : sp_hours (weekend_day p w i) = day_length (pa_population p)) by reflexivity. assert (Hn : sp_hours (week_night p w i) = 24 - day_length (pa_population p)) by reflexivity.
  assert (Hm : sp_hours (weekend_night p w i) = 24 - day_length (pa_population p)) by reflexivity. rewrite Hd, Hn, Hm.
  assert (PN : sp_part (week_night p w i) = (24 - day_length (pa_population p)) * (week_days (pa_population p) - 1) / 168) by reflexivity. rewrite PN. unfold occupied_share.
  set (h := day_length (pa_population p)) in *. set (d := week_days (pa_population p)) in *. set (tau := room_tau p) in *. clearbody h d tau.
  destruct (cooling tau u (24 - h) c T ltac:(lra) U) as [[A1 A2] A3]. set (s1 := after tau u (24 - h) c) in *. set (m0 := mean_over tau u (24 - h) c) in *. clearbody s1 m0.
  destruct (cooling tau u h s1 T ltac:(lra) A1) as [[B1 B2] B3]. rewrite (Rmax_left s1 u) by lra. set (s2 := after tau u h s1) in *. set (m1 := mean_over tau u h s1) in *. clearbody s2 m1.
  destruct (cooling tau u (24 - h) s2 T ltac:(lra) B1) as [[C1 C2] C3]. rewrite (Rmax_left s2 u) by lra. set (s3 := after tau u (24 - h) s2) in *. set (m2 := mean_over tau u (24 - h) s2) in *. clearbody s3 m2.
  destruct (cooling tau u h s3 T ltac:(lra) C1) as [[D1 D2] D3]. rewrite (Rmax_left s3 u) by lra. set (s4 := after tau u h s3) in *. set (m3 := mean_over tau u h s3) in *. clearbody s4 m3.
  destruct (cooling tau u (24 - h) s4 T ltac:(lra) D1) as [[E1 E2] E3]. rewrite (Rmax_left s4 u) by lra. set (m4 := mean_over tau u (24 - h) s4) in *. clearbody m4.
  rewrite !Rmax_left by lra. unfold Rsum. cbn [fold_right]. set (avg := (m0 + (m1 + (m2 + (m3 + (m4 + 0))))) / 5). assert (AV : avg < c) by (unfold avg; lra). clearbody avg.
  set (o := h * d / 168). set (n := (24 - h) * (d - 1) / 168). assert (NP : 0 < n) by (unfold n; apply Rmult_lt_0_compat; [apply Rmult_lt_0_compat|]; lra).
  assert (WP : 0 < 1 - o - n). { unfold o, n. replace (1 - h * d / 168 - (24 - h) * (d - 1) / 168) with ((h * (7 - d) + (24 - h) * (8 - d)) / 168) by field. assert (0 < h * (7 - d)) by (apply Rmult_lt_0_compat; lra). assert (0 < (24 - h) * (8 - d)) by (apply Rmult_lt_0_compat; lra). lra. }
  clearbody o n. assert (K1 : m1 * n < m0 * n) by (apply Rmult_lt_compat_r; lra). assert (K2 : m1 * n < c * n) by (apply Rmult_lt_compat_r; lra). assert (K3 : avg * (1 - o - n) < c * (1 - o - n)) by (apply Rmult_lt_compat_r; lra).
  assert (LT : c * o + m1 * n + avg * (1 - o - n) < c) by lra. rewrite Rmin_left by lra. apply Rmin_glb_lt; lra.
Qed.

(** *** A building open every day *)
Lemma power_at0 (s : structure_t R) (phi : R) ms fr sol i f e : nth_error ms i = Some 0 -> nth_error fr i = Some f -> nth_error sol i = Some e ->
  nth_error (unoccupiedHeatGain s phi ms fr sol) i = Some Rdblmax.
Proof.
  intros A B C. unfold unoccupiedHeatGain, vdiv. rewrite (nth_zipw _ _ _ _ (0 * (phi * st_floorArea s) + e * f) 0); [| |exact A].
  - f_equal. unfold sdiv. rewrite zn_R. change (@neqb R _ 0 0) with (Reqb 0 0). rewrite (Reqb_true 0 0 eq_refl). reflexivity.
  - unfold vadd. change (0 * (phi * st_floorArea s) + e * f) with (nadd (0 * (phi * st_floorArea s)) (e * f)). apply nth_zipw.
    + unfold scale. rewrite nth_error_map, A. reflexivity.
    + unfold vmul. exact (nth_zipw nmul _ _ i e f C B).
Qed.
Lemma dblmax_huge : huge ^ 6 <= Rdblmax.
Proof.
  unfold huge. rewrite <- pow_mult. change (50 * 6)%nat with 300%nat. apply Rle_trans with (2 ^ 1000).
  - replace (10 ^ 300) with ((10 ^ 3) ^ 100) by (rewrite <- pow_mult; apply f_equal; reflexivity). replace (2 ^ 1000) with ((2 ^ 10) ^ 100) by (rewrite <- pow_mult; apply f_equal; reflexivity). apply pow_incr. lra.
  - apply Rle_trans with (2 ^ 1023); [apply Rle_pow; [lra|lia]|]. with_strategy transparent [Rdblmax] unfold Rdblmax. assert (H : 0 < 2 ^ 1023) by (apply pow_lt; lra). assert (H2 : 1 <= 2 ^ 52) by (apply pow_R1_Rle; lra).
    assert (H3 : / 2 ^ 52 <= 1). { rewrite <- Rinv_1. apply Rinv_le_contravar; lra. }
    replace (2 ^ 1023) with (1 * 2 ^ 1023) at 1 by ring. apply Rmult_le_compat_r; lra.
Qed.
Lemma huge_big : 1000 <= huge.
Proof. unfold huge. change 50%nat with (3 + 47)%nat. rewrite pow_add. assert (1 <= 10 ^ 47) by (apply pow_R1_Rle; lra). replace (10 ^ 3) with 1000 by ring. lra. Qed.
(** A room that tends to a huge temperature gets very hot. *)
Lemma hot tau h B eq s : 0 < tau -> 0 < h -> 1 <= B -> tau <= B * h -> 0 <= eq -> - B <= s -> eq / (4 * B) - B <= mean_over tau eq h s.
Proof.
  intros T H B1 L Q S. set (x := h / tau). assert (X : 0 < x) by (apply Rmult_lt_0_compat; [lra|now apply Rinv_0_lt_compat]). destruct (exp_mean x X) as [A C]. pose proof (exp_pos (- x)) as EP.
  set (k := (1 - exp (- x)) / x) in *. unfold mean_over. fold x. replace (eq + (s - eq) * (tau / h) * (1 - exp (- x))) with (eq * (1 - k) + s * k) by (unfold k, x; field; split; lra).
  assert (K : 1 / (4 * B) <= 1 - k).
  { assert (XB : 1 / B <= x). { unfold x. apply Rmult_le_reg_r with (B * tau); [apply Rmult_lt_0_compat; lra|]. replace (1 / B * (B * tau)) with tau by (field; lra). replace (h / tau * (B * tau)) with (B * h) by (field; lra). exact L. }
    assert (IB : 1 / B <= 1). { apply Rmult_le_reg_r with B; [lra|]. replace (1 / B * B) with 1 by (field; lra). lra. }
    replace (1 / (4 * B)) with (1 / B / 4) by (field; lra). destruct (Rle_dec x 2) as [Y|Y].
    - assert (E2 : (1 - x / 2) * (1 - x / 2) <= exp (- x)).
      { replace (- x) with (- (x / 2) + - (x / 2)) by field. rewrite exp_plus. assert (1 + - (x / 2) < exp (- (x / 2))) by (apply exp_ineq1; lra). apply Rmult_le_compat; lra. }
      assert (k <= 1 - x / 4); [|lra]. unfold k. apply Rmult_le_reg_r with x; [lra|]. unfold Rdiv. rewrite Rmult_assoc, Rinv_l by lra. lra.
    - assert (k <= 1 / 2); [|lra]. unfold k. apply Rmult_le_reg_r with x; [lra|]. unfold Rdiv. rewrite Rmult_assoc, Rinv_l by lra. lra. }
  assert (P1 : eq / (4 * B) <= eq * (1 - k)). { replace (eq / (4 * B)) with (eq * (1 / (4 * B))) by (field; lra). apply Rmult_le_compat_l; lra. }
  assert (K0 : 0 < k) by lra. assert (P2 : - B * 1 <= s * k). { apply Rle_trans with (- B * k); [|apply Rmult_le_compat_r; lra]. assert (B * k <= B * 1) by (apply Rmult_le_compat_l; lra). lra. }
  lra.
Qed.
Lemma seven_R p w r i z : sound p -> week_days (pa_population p) = 7 -> moderate p w -> (forall row, In row (mw_mhEgh w) -> all_nonneg row) -> ntrunc (bu_bem (pa_building p)) = Some z -> run p w r -> (i < 12)%nat ->
  nth_error (te_h (mr_temps r)) i = Some (ht_tempOcc (pa_heating p) - bem_relief z).
Proof.
  intros S D7 MO SU Z E I. pose proof (rn_tab _ _ _ E) as T. pose proof T as (_ & (T1 & T2) & (T3 & T4) & _). pose proof (so_hours p S) as HH.
  destruct (nth_some _ i _ T1 I) as [air AIR]. destruct (nth_some _ i _ T3 I) as [sun SUN]. pose proof (T2 _ (nth_error_In _ _ AIR)) as LA.
  pose proof (rn_bd _ _ _ E) as BB. rewrite (rn_oc _ _ _ E) in BB.
  assert (P : 0 < sun_week (day_length (pa_population p)) sun).
  { assert (Y : sun_every_month w) by (apply (breakdown_iff (scheduleAndOccupancy (pa_population p))); eauto). pose proof (nth_error_In _ _ SUN) as J. destruct (Y sun J) as (x & X & Z0). rewrite zn_R in Z0.
    cbn [neqb R_num] in Z0. apply (sun_pos _ _ x HH (SU sun J) X). intros ->. rewrite Reqb_true in Z0 by reflexivity. discriminate Z0. }
  destruct (breakdown_at _ _ _ _ _ HH T BB SUN P) as (B1 & B2 & B3). cbv zeta in B1, B2, B3.
  assert (TN : nth_error (bd_Tnt (mr_bd r)) i = Some (night_mean (day_length (pa_population p)) air) /\ nth_error (bd_Tday (mr_bd r)) i = Some (day_mean (day_length (pa_population p)) air)).
  { unfold solarRadiationBreakdown in BB. cbv zeta in BB. destruct (omap _ _) as [dn| |]; [cbn [obind] in BB|discriminate BB|discriminate BB]. apply ok_inj in BB. rewrite <- BB. cbn [bd_Tnt bd_Tday].
    unfold scheduleAndOccupancy. cbn [oc_clockOcc oc_clockUnocc]. rewrite !zn_R, day_length_eq.
    pose proof (mean_at _ (clockMask (day_length (pa_population p)) 1 0) _ _ AIR) as M1. pose proof (mean_at _ (clockMask (day_length (pa_population p)) 0 1) _ _ AIR) as M2.
    rewrite day_row in M1 by exact LA. rewrite night_row in M2 by exact LA. now split. }
  destruct TN as [TN TD]. pose proof (mega_nth i I) as M. pose proof (mega_pos i I) as MP.
  destruct (rn_sol _ _ _ E) as (ws & WS & ES). assert (SOL := solar_month _ _ _ _ (so_surf p S) (so_sdf p S) T WS I). rewrite <- ES in SOL.
  assert (HN : (24 - day_length (pa_population p)) <> 0) by lra.
  assert (O1 : nth_error (oc_wkUnocc (mr_occ r)) i = Some (month_megaseconds i * ((24 - day_length (pa_population p)) * 6 / 168))).
  { rewrite (rn_oc _ _ _ E). unfold scheduleAndOccupancy, hoursInWeek. cbn [oc_wkUnocc]. rewrite day_length_eq, week_days_eq, D7, !zn_R. rewrite (scale_at _ _ _ _ M). f_equal. ops. field. }
  assert (O2 : nth_error (oc_weOcc (mr_occ r)) i = Some 0).
  { rewrite (rn_oc _ _ _ E). unfold scheduleAndOccupancy, hoursInWeek. cbn [oc_weOcc]. rewrite day_length_eq, week_days_eq, D7, !zn_R. rewrite (scale_at _ _ _ _ M). f_equal. ops. field. }
  assert (O3 : nth_error (oc_weUnocc (mr_occ r)) i = Some (month_megaseconds i * ((24 - day_length (pa_population p)) * 1 / 168))).
  { rewrite (rn_oc _ _ _ E). unfold scheduleAndOccupancy, hoursInWeek. cbn [oc_weUnocc]. rewrite day_length_eq, week_days_eq, D7, !zn_R. rewrite (scale_at _ _ _ _ M). f_equal. ops. field. }
  assert (N1 : month_megaseconds i * ((24 - day_length (pa_population p)) * 6 / 168) <> 0) by (apply Rgt_not_eq, Rmult_lt_0_compat; lra).
  assert (N3 : month_megaseconds i * ((24 - day_length (pa_population p)) * 1 / 168) <> 0) by (apply Rgt_not_eq, Rmult_lt_0_compat; lra).
  set (phi := ga_unocc (mr_gains r)).
  pose proof (power_at (pa_structure p) phi _ _ _ _ _ _ _ O1 B1 SOL N1) as PA. pose proof (power_at0 (pa_structure p) phi _ _ _ _ _ _ O2 B2 SOL) as PB. pose proof (power_at (pa_structure p) phi _ _ _ _ _ _ _ O3 B3 SOL N3) as PC.
  match type of PA with _ = Some ?x => set (a := x) in PA end. match type of PC with _ = Some ?x => set (c := x) in PC end. clearbody a c.
  pose proof (rn_temps _ _ _ E) as B. cbv zeta in B. unfold interiorTemp in B. rewrite (relief p z Z) in B. cbn [obind] in B. apply ok_inj in B.
  match type of B with {| te_h := map ?f ?q; te_c := map ?g _; te_tau := _ |} = _ => set (qs := q) in B end.
  pose proof (nth_zip5 (periods (mr_occ r) (mr_H_tr r + ve_H_ve (pa_ventilation p))) _ _ _ _ _ i _ _ _ _ _ TN TD PA PB PC) as NQ.
  change (zip5 _ _ _ _ _ _) with qs in NQ. clearbody qs.
  assert (HL : mr_H_tr r + ve_H_ve (pa_ventilation p) = room_loss p) by (rewrite (rn_H _ _ _ E), UA_R by apply S; reflexivity). rewrite HL in NQ.
  assert (TA : timeConstant p (nadd (mr_H_tr r) (ve_H_ve (pa_ventilation p))) = room_tau p). { change (nadd (mr_H_tr r) (ve_H_ve (pa_ventilation p))) with (mr_H_tr r + ve_H_ve (pa_ventilation p)). rewrite HL, cap_R. reflexivity. }
  pose proof (sound_occ p S) as (Oa & Ob & Oc & _). cbv zeta in *. rewrite <- B. cbn [te_h]. rewrite nth_error_map, NQ. cbn [option_map]. f_equal. rewrite (rn_oc _ _ _ E), TA.
  assert (W : 1 <= week_days (pa_population p) <= 7) by lra. destruct (weights (pa_population p) HH W) as (W1 & W2 & W3 & W4).
  assert (WN : oc_wk_nt (scheduleAndOccupancy (pa_population p)) = (24 - day_length (pa_population p)) * 6 / 168).
  { unfold scheduleAndOccupancy, hoursInWeek. cbn [oc_wk_nt]. rewrite day_length_eq, week_days_eq, D7, !zn_R. ops. field. }
  unfold weekMean. rewrite nmin_R. apply Rmin_right. rewrite !zn_R. change (@neqb R _ (ht_T_ctrl_flag (pa_heating p)) 1) with (Reqb (ht_T_ctrl_flag (pa_heating p)) 1).
  set (oc := scheduleAndOccupancy (pa_population p)) in *. set (c0 := nsub (ht_tempOcc (pa_heating p)) (bem_relief z)). change (ht_tempOcc (pa_heating p) - bem_relief z) with c0. set (u := ht_tempUnocc (pa_heating p)).
  assert (HB := huge_big). assert (C0 : c0 <= 2 * huge).
  { change c0 with (ht_tempOcc (pa_heating p) - bem_relief z). pose proof (Rle_abs (ht_tempOcc (pa_heating p))). pose proof (md_occ _ _ MO). unfold bem_relief. destruct (z =? 2)%Z; [lra|]. destruct (z =? 3)%Z; lra. }
  assert (U0 : - huge <= u). { pose proof (md_back _ _ MO) as K. fold u in K. pose proof (Rle_abs (- u)) as K2. rewrite Rabs_Ropp in K2. lra. }
  destruct (Reqb_spec (ht_T_ctrl_flag (pa_heating p)) 1) as [FL|FL]; cycle 1.
  { ops. replace (c0 * oc_wk_day oc + c0 * oc_wk_nt oc + c0 * oc_wke_tot oc) with (c0 * (oc_wk_day oc + oc_wk_nt oc + oc_wke_tot oc)) by ring. rewrite W4. lra. }
  unfold heatingPeriods, periods. cbn [firstn decayChain map zipw nth]. unfold accumulate. cbn [fold_left]. rewrite !decayMean_over. cbn [pe_t pe_Te pe_dT]. rewrite !nmax_R, !zn_R. ops.
  assert (TAU : 0 < room_tau p).
  { unfold room_tau, room_loss. pose proof (so_cap p S). pose proof (so_loss p S). unfold Rdiv. apply Rmult_lt_0_compat; [apply Rmult_lt_0_compat; [assumption|now apply Rinv_0_lt_compat]|lra]. }
  assert (LOSS : 0 < room_loss p) by (unfold room_loss; apply S). rewrite Oa, Ob.
  match goal with |- _ <= c0 * _ + Rmax (mean_over ?t ?eq ?h ?s) u * _ + _ => assert (HOT := hot t h huge eq s); assert (SU0 : u <= s) by apply Rmax_r; set (m1 := mean_over t eq h s) in *; set (q1 := eq) in *; clearbody m1 end.
  assert (Q1 : huge ^ 4 * 16 <= q1).
  { assert (DM := dblmax_huge). assert (ML := md_loss _ _ MO). pose proof (md_air _ _ MO i I) as MA. rewrite (nth_error_nth _ _ [] AIR) in MA.
    assert (KD : huge ^ 5 <= Rdblmax / room_loss p). { apply Rmult_le_reg_r with (room_loss p); [exact LOSS|]. unfold Rdiv. rewrite Rmult_assoc, Rinv_l by lra. rewrite Rmult_1_r. apply Rle_trans with (huge ^ 6); [|exact DM].
      replace (huge ^ 6) with (huge ^ 5 * huge) by ring. apply Rmult_le_compat_l; [apply pow_le; lra|exact ML]. }
    assert (P4 : huge <= huge ^ 4). { replace (huge ^ 4) with (huge * (huge * huge * huge)) by ring. assert (1 <= huge * huge * huge). { replace 1 with (1 * 1 * 1) by ring. repeat apply Rmult_le_compat; lra. } replace huge with (huge * 1) at 1 by ring. apply Rmult_le_compat_l; lra. }
    assert (P5 : 1000 * huge ^ 4 <= huge ^ 5). { replace (huge ^ 5) with (huge * huge ^ 4) by ring. apply Rmult_le_compat_r; [apply pow_le|]; lra. }
    unfold q1. change (ndiv ?x ?y) with (x / y). lra. }
  assert (P4 : 0 <= huge ^ 4) by (apply pow_le; lra). specialize (HOT TAU (proj1 HH) ltac:(lra) (md_tau _ _ MO) ltac:(lra) ltac:(lra)). clearbody q1.
  assert (HM : 3 * huge ^ 3 <= m1).
  { apply Rle_trans with (q1 / (4 * huge) - huge); [|exact HOT]. assert (4 * huge ^ 3 <= q1 / (4 * huge)). { apply Rmult_le_reg_r with (4 * huge); [lra|]. replace (4 * huge ^ 3 * (4 * huge)) with (huge ^ 4 * 16) by ring. replace (q1 / (4 * huge) * (4 * huge)) with q1 by (field; lra). lra. }
    assert (huge <= huge ^ 3). { replace (huge ^ 3) with (huge * (huge * huge)) by ring. assert (1 * 1 <= huge * huge) by (apply Rmult_le_compat; lra). replace huge with (huge * 1) at 1 by ring. apply Rmult_le_compat_l; lra. } lra. }
  match goal with |- _ <= c0 * _ + ?x * _ + _ * _ => set (mm := x); assert (MM : m1 <= mm) by apply Rmax_l end.
  match goal with |- _ <= _ + ?y * oc_wke_tot _ => set (av := y); assert (AV : u <= av) end.
  { unfold av. repeat match goal with |- context [Rmax (mean_over ?t ?eq ?h ?s) u] => let v := fresh "v" in assert (u <= Rmax (mean_over t eq h s) u) by apply Rmax_r; set (v := Rmax (mean_over t eq h s) u) in *; clearbody v end. fold mm. assert (u <= mm) by apply Rmax_r. lra. }
  clearbody mm av. rewrite WN in *. set (n := (24 - day_length (pa_population p)) * 6 / 168) in *. pose proof (md_night _ _ MO) as NI.
  assert (NN : 1 <= 28 * huge * n). { unfold n. lra. }
  assert (H3 : 0 <= huge * huge) by (apply Rmult_le_pos; lra).
  assert (G1 : 3 * huge ^ 3 * n <= mm * n) by (apply Rmult_le_compat_r; [exact W2|lra]).
  assert (G2 : 3 * huge * huge <= 28 * (3 * huge ^ 3 * n)). { replace (28 * (3 * huge ^ 3 * n)) with (3 * huge * huge * (28 * huge * n)) by ring. replace (3 * huge * huge) with (3 * huge * huge * 1) at 1 by ring. apply Rmult_le_compat_l; lra. }
  assert (G3 : 1000 * huge <= huge * huge) by (apply Rmult_le_compat_r; lra).
  assert (G4 : - huge * oc_wke_tot oc <= av * oc_wke_tot oc) by (apply Rmult_le_compat_r; lra).
  assert (G5 : c0 * (1 - oc_wk_day oc) <= 2 * huge * 1). { apply Rle_trans with (2 * huge * (1 - oc_wk_day oc)); [apply Rmult_le_compat_r; lra|apply Rmult_le_compat_l; lra]. }
  assert (G6 : huge * oc_wke_tot oc <= huge * 1) by (apply Rmult_le_compat_l; lra). lra.
Qed.
Lemma C68_l p w m z i : sound p -> week_days (pa_population p) = 7 -> moderate p w -> (forall row, In row (mw_mhEgh w) -> all_nonneg row) -> ntrunc (bu_bem (pa_building p)) = Some z ->
  monthlyAll (map_params Fin p) (fin_weather w) = Ok m -> (i < 12)%nat -> nth_error (te_h (mr_temps m)) i = Some (Fin (ht_tempOcc (pa_heating p) - bem_relief z)).
Proof.
  intros S D MO SU Z M I. apply monthlyAll_run in M. destruct (run_fin _ _ _ S M) as (r & E & F). rewrite (fr_temps _ _ F). cbn [fin_temps te_h]. rewrite nth_error_map, (seven_R p w r i z S D MO SU Z E I). reflexivity.
Qed.

(** *** The house *)
Lemma in_numbered {A} (x : A) n : forall s k, (s <= k < s + n)%nat -> In (k, x) (combine (seq s n) (repeat x n)).
Proof. induction n as [|n IH]; intros s k K; [lia|]. cbn [seq repeat combine]. destruct (Nat.eq_dec s k) as [->|N]; [now left|]. right. apply IH. lia. Qed.
Lemma mean_const te (l : list R) : l <> [] -> (forall x, In x l -> x = te) -> S_MonthlyHeat.mean l = te.
Proof.
  intros N H. assert (G : Rsum l = INR (length l) * te).
  { clear N. induction l as [|y l IH]; [cbn; ring|]. change (Rsum (y :: l)) with (y + Rsum l). cbn [length]. rewrite S_INR, (H y (or_introl eq_refl)), IH; [ring|]. intros x X. apply H. now right. }
  unfold S_MonthlyHeat.mean. rewrite G. assert (0 < INR (length l)). { apply lt_0_INR. destruct l; [now destruct N|cbn; lia]. } field. lra.
Qed.
Lemma selected_const f (te x : R) n : In x (selected f (repeat te n)) -> x = te.
Proof. intros X. unfold selected in X. apply in_map_iff in X. destruct X as ((m & y) & <- & X). apply filter_In in X. destruct X as [X _]. apply in_combine_r, repeat_spec in X. exact X. Qed.
Lemma selected_some f (te : R) n k : (k < n)%nat -> f k = true -> In te (selected f (repeat te n)).
Proof. intros K F. unfold selected. apply in_map_iff. exists (k, te). split; [reflexivity|]. apply filter_In. split; [|exact F]. rewrite repeat_length. apply in_numbered. lia. Qed.
Lemma mean_selected f (te : R) n k : (k < n)%nat -> f k = true -> S_MonthlyHeat.mean (selected f (repeat te n)) = te.
Proof.
  intros K F. apply mean_const; [|intros x; apply selected_const]. pose proof (selected_some f te n k K F) as J. intros Q. rewrite Q in J. destruct J.
Qed.
Lemma steady_row te i : (i < 12)%nat -> nth i (mw_mhdbt (@steadyYear R _ te)) [] = repeat te 24.
Proof. intros I. unfold steadyYear. cbn [mw_mhdbt]. apply nth_rep. exact I. Qed.
Lemma nh_mean (f : nat -> bool) te i k : (i < 12)%nat -> (k < 24)%nat -> f k = true -> S_MonthlyHeat.mean (selected f (nth i (mw_mhdbt (@steadyYear R _ te)) [])) = te.
Proof. intros I K F. rewrite steady_row by exact I. now apply mean_selected with k. Qed.
Section NightHouse.
Context (u a b : R).
Let po : population_t R := mkPopulation (zn 17) (zn 8) b a (zn 25) (zn 150) (zn 0).
Let p : params_t R := nightHouse u a b.
Lemma nh_length : day_length po = 9.
Proof. unfold day_length. cbn [po po_hoursEnd po_hoursStart]. rewrite !zn_R. destruct (Rlt_dec (17 - 8) 0); lra. Qed.
Lemma nh_days : 0 <= b - a + 1 -> week_days po = b - a + 1.
Proof. intros H. unfold week_days. cbn [po po_daysEnd po_daysStart]. destruct (Rlt_dec (b - a + 1) 0); lra. Qed.
Lemma nh_sound : 0 <= b - a + 1 <= 7 -> sound p.
Proof.
  intros D. destruct (house_sound (zn 0) (zn 0) (zn 0) (zn 0)). constructor; try assumption.
  - change (pa_population p) with po. rewrite nh_days by lra. lra.
Qed.
Lemma nh_rows te : exists m rows, monthlyAll (map_params Fin p) (fin_weather (steadyYear te)) = Ok m /\ simulateMonthly (map_params Fin p) (fin_weather (steadyYear te)) = Ok rows.
Proof.
  assert (G : exists rows, simulateMonthly (map_params Fin p) (fin_weather (steadyYear te)) = Ok rows).
  { apply C18_monthly_defined_l. split.
    { intros v I. cbn in I. repeat (destruct I as [<-|I]; [reflexivity|]). destruct I. }
    split. { cbn. repeat split; intros r I; repeat (destruct I as [<-|I]; [reflexivity|]); destruct I. }
    split. { intros row I. exists (zn 200). cbn in I. split; [repeat (destruct I as [<-|I]; [cbn; tauto|]); destruct I|]. rewrite !zn_fin, eqb_fin. apply Reqb_false. rewrite !zn_R. lra. }
    split. { intros y I. left. change (st_windowSDF _) with (map Fin (repeat (@zn R _ 1) 9)) in I. rewrite <- repeat_fin in I. apply repeat_spec in I. subst y. rewrite zn_R. apply (trunc_Z 1). lia. }
    exists 1%Z. change (bu_bem _) with (Fin (@zn R _ 1)). rewrite zn_R. apply (trunc_Z 1). lia. }
  destruct G as (rows & G). destruct (simulate_all _ _ _ G) as (m & M). exists m, rows. split; [exact M|exact G].
Qed.
Lemma nh_run te : exists m, monthlyAll (map_params Fin p) (fin_weather (steadyYear te)) = Ok m.
Proof. destruct (nh_rows te) as (m & rows & M & _). now exists m. Qed.
Lemma nh_sun te row : In row (mw_mhEgh (@steadyYear R _ te)) -> all_nonneg row.
Proof.
  intros I x X. apply repeat_spec in I. subst row. rewrite !in_app_iff in X.
  destruct X as [X|[X|X]]; apply repeat_spec in X; subst x; rewrite zn_R; lra.
Qed.
Lemma nh_case te : 1 < b - a + 1 < 7 -> week_case p (steadyYear te).
Proof.
  intros D. constructor.
  - constructor; cbn [p nightHouse set_heat_setback with_population house smallOffice lamps pa_population pa_lighting po_hoursEnd po_hoursStart po_daysEnd po_daysStart li_n_day_start li_n_day_end li_n_weeks]; rewrite ?zn_R; cbn [lit R_num]; unfold Rlit; lra.
  - change (pa_population p) with po. rewrite nh_days by lra. lra.
  - apply nh_sun.
Qed.
Lemma nh_idle : idle_gain p = 0.
Proof.
  unfold idle_gain, gain_unoccupied. cbn [p nightHouse set_heat_setback with_population house smallOffice lamps pa_population pa_lighting pa_building po_heatGainPerPerson po_densityUnocc bu_elecApplianceUnocc bu_gasApplianceUnocc li_densityUnocc].
  rewrite !zn_R. unfold Rdiv. ring.
Qed.
Lemma nh_solar te i : solar_gain (pa_structure p) (steadyYear te) i = 0.
Proof.
  unfold solar_gain. replace (Rsum _) with 0; [ring|]. symmetry.
  assert (G : forall l, (forall x, In x l -> x = 0) -> Rsum l = 0).
  { induction l as [|y l IH]; intros H; [reflexivity|]. change (Rsum (y :: l)) with (y + Rsum l). rewrite (H y (or_introl eq_refl)), IH; [ring|]. intros x X. apply H. now right. }
  apply G. intros x X. apply in_map_iff in X. destruct X as (k & <- & K). apply in_seq in K.
  assert (Z : forall k, nth k (repeat (@zn R _ 0) 9) 0 = 0) by (intros j; rewrite zn_R; do 9 (destruct j as [|j]; [reflexivity|]); destruct j; reflexivity).
  unfold window_sun, wall_sun. change (st_windowArea (pa_structure p)) with (repeat (@zn R _ 0) 9). change (st_wallAbsorption (pa_structure p)) with (repeat (@zn R _ 0) 9). change (st_wallEmissivity (pa_structure p)) with (repeat (@zn R _ 0) 9).
  rewrite !Z. ring.
Qed.
Lemma nh_target te i : (i < 12)%nat -> target p (steadyYear te) i (week_night p (steadyYear te) i) = te /\ target p (steadyYear te) i (weekend_day p (steadyYear te) i) = te /\ target p (steadyYear te) i (weekend_night p (steadyYear te) i) = te.
Proof.
  intros I. unfold target. rewrite nh_idle, nh_solar. cbn [week_night weekend_day weekend_night sp_out]. change (pa_population p) with po. rewrite nh_length.
  assert (A : day_mean 9 (nth i (mw_mhdbt (@steadyYear R _ te)) []) = te).
  { unfold day_mean. apply (nh_mean (in_window 9) te i 7 I); [lia|]. unfold in_window. destruct (Rle_dec 7 (INR 7)) as [Q|Q]; [|exfalso; apply Q; cbn; lra]. destruct (Rlt_dec (INR 7) (7 + 9)) as [V|V]; [reflexivity|]. exfalso. apply V. cbn. lra. }
  assert (B : night_mean 9 (nth i (mw_mhdbt (@steadyYear R _ te)) []) = te).
  { unfold night_mean. apply (nh_mean (fun k => negb (in_window 9 k)) te i 0 I); [lia|]. unfold in_window. destruct (Rle_dec 7 (INR 0)) as [Q|Q]; [exfalso; cbn in Q; lra|reflexivity]. }
  rewrite A, B. repeat split; unfold Rdiv; ring.
Qed.
Lemma nh_bem : ntrunc (bu_bem (pa_building p)) = Some 1%Z.
Proof. change (bu_bem (pa_building p)) with (@zn R _ 1). rewrite zn_R. apply (trunc_Z 1). lia. Qed.
Lemma nh_occ : ht_tempOcc (pa_heating p) = 24.
Proof. change (ht_tempOcc (pa_heating p)) with (ht_tempOcc (pa_heating (@smallOffice R _))). cbn. unfold Rlit. lra. Qed.
Lemma nh_flag : ht_T_ctrl_flag (pa_heating p) = 1.
Proof. change (ht_T_ctrl_flag (pa_heating p)) with (ht_T_ctrl_flag (pa_heating (@smallOffice R _))). cbn. unfold Rlit. lra. Qed.
Lemma nh_loss : 90 <= room_loss p <= 1000.
Proof. unfold room_loss. change (pa_structure p) with (@houseStructure R _ (zn 0)). rewrite house_UA. change (ve_H_ve (pa_ventilation p)) with (ve_H_ve (pa_ventilation (@smallOffice R _))). cbn. unfold Rlit. lra. Qed.
Lemma nh_moderate te : Rabs u <= 1000 -> Rabs te <= 1000 -> moderate p (steadyYear te).
Proof.
  intros U T. pose proof huge_big as H. pose proof nh_loss as L. constructor.
  - lra.
  - change (pa_population p) with po. rewrite nh_length. unfold room_tau. change (pa_structure p) with (@houseStructure R _ (zn 0)). rewrite house_cap. apply Rmult_le_reg_r with (room_loss p * 3600); [lra|].
    replace (10000000 / room_loss p / 3600 * (room_loss p * 3600)) with 10000000 by (field; lra). assert (1000 * 9 * (90 * 3600) <= huge * 9 * (room_loss p * 3600)) by (apply Rmult_le_compat; lra). lra.
  - change (pa_population p) with po. rewrite nh_length. lra.
  - rewrite nh_occ, Rabs_right; lra.
  - change (ht_tempUnocc (pa_heating p)) with u. lra.
  - intros i I. destruct (nh_target te i I) as (_ & K & _). unfold target in K. rewrite nh_idle, nh_solar in K. cbn [weekend_day sp_out] in K. pose proof (Rle_abs (- te)) as A. rewrite Rabs_Ropp in A.
    assert (E : day_mean (day_length (pa_population p)) (nth i (mw_mhdbt (steadyYear te)) []) = te) by (rewrite <- K at 2; unfold Rdiv; ring). rewrite E. lra.
Qed.
End NightHouse.
(** The mean of the weekend's days stands in for the nights of the week: a house at 10 degrees outside working hours is reported colder than its week is. *)
Lemma C67_refuted_l : exists p w m t, sound p /\ week_case p w /\ ht_T_ctrl_flag (pa_heating p) = 1 /\ ntrunc (bu_bem (pa_building p)) = Some 1%Z /\ monthlyAll (map_params Fin p) (fin_weather w) = Ok m /\
  nth_error (te_h (mr_temps m)) 0 = Some (Fin t) /\ t < week_temperature p w 0 0 (ht_tempOcc (pa_heating p)) (ht_tempOcc (pa_heating p)) (ht_tempUnocc (pa_heating p)).
Proof.
  destruct (nh_run 10 1 5 10) as (m & M). assert (S : sound (nightHouse 10 1 5)) by (apply nh_sound; lra). assert (W : week_case (nightHouse 10 1 5) (steadyYear 10)) by (apply nh_case; lra).
  destruct (C67_l _ _ m 1 0 S W (nh_bem 10 1 5) M ltac:(lia)) as [A _]. cbv zeta in A. specialize (A (nh_flag 10 1 5)).
  replace (ht_tempOcc (pa_heating (nightHouse 10 1 5)) - bem_relief 1) with (ht_tempOcc (pa_heating (nightHouse 10 1 5))) in A by (unfold bem_relief; cbn [Z.eqb Pos.eqb]; lra).
  exists (nightHouse 10 1 5), (steadyYear 10), m. eexists. split; [exact S|]. split; [exact W|]. split; [apply nh_flag|]. split; [apply nh_bem|]. split; [exact M|]. split; [exact A|].
  rewrite nh_occ. change (ht_tempUnocc (pa_heating (nightHouse 10 1 5))) with 10. destruct (nh_target 10 1 5 10 0 ltac:(lia)) as (T1 & T2 & T3). apply night_matters; try assumption; [|lra].
  apply W.
Qed.
(** Ten degrees outdoors and a set-back to ten degrees: 24 degrees all week in a house open every day. *)
Lemma C68_refuted_l : exists p w m, sound p /\ moderate p w /\ week_days (pa_population p) = 7 /\ ht_T_ctrl_flag (pa_heating p) = 1 /\ ht_tempUnocc (pa_heating p) = 10 /\ ht_tempOcc (pa_heating p) = 24 /\
  (forall row x, In row (mw_mhdbt w) -> In x row -> x = 10) /\ idle_gain p = 0 /\ (forall i, solar_gain (pa_structure p) w i = 0) /\
  monthlyAll (map_params Fin p) (fin_weather w) = Ok m /\ forall i, (i < 12)%nat -> nth_error (te_h (mr_temps m)) i = Some (Fin 24).
Proof.
  destruct (nh_run 10 0 6 10) as (m & M). assert (S : sound (nightHouse 10 0 6)) by (apply nh_sound; lra). exists (nightHouse 10 0 6), (steadyYear 10), m. split; [exact S|].
  assert (MO : moderate (nightHouse 10 0 6) (steadyYear 10)) by (apply nh_moderate; rewrite Rabs_right; lra). assert (D7 : week_days (pa_population (nightHouse 10 0 6)) = 7).
  { change (pa_population (nightHouse 10 0 6)) with (mkPopulation (@zn R _ 17) (zn 8) 6 0 (zn 25) (zn 150) (zn 0)). rewrite nh_days; lra. }
  split; [exact MO|]. split; [exact D7|]. split; [apply nh_flag|]. split; [reflexivity|]. split; [apply nh_occ|].
  split. { intros row x A B. apply repeat_spec in A. subst row. apply repeat_spec in B. exact B. } split; [apply nh_idle|]. split; [intros i; apply nh_solar|]. split; [exact M|].
  intros i I. pose proof (C68_l _ _ m 1 i S D7 MO (nh_sun 10) (nh_bem 10 0 6) M I) as A. rewrite A. rewrite nh_occ. unfold bem_relief. cbn [Z.eqb Pos.eqb]. do 2 f_equal. lra.
Qed.

(** *** Cases *)
Lemma night_case : let p := nightHouse 10 1 5 in sound p /\ week_case p (steadyYear 10) /\ ntrunc (bu_bem (pa_building p)) = Some 1%Z /\
  ht_T_ctrl_flag (pa_heating p) = 1 /\ cl_T_ctrl_flag (pa_cooling p) = 1 /\ st_infiltrationRate (pa_structure p) <> 0 /\ 0 <= ve_fanPower (pa_ventilation p) * ve_fanControlFactor (pa_ventilation p) /\
  exists m rows, monthlyAll (map_params Fin p) (fin_weather (steadyYear 10)) = Ok m /\ simulateMonthly (map_params Fin p) (fin_weather (steadyYear 10)) = Ok rows.
Proof.
  cbv zeta. split; [apply nh_sound; lra|]. split; [apply nh_case; lra|]. split; [apply nh_bem|]. split; [apply nh_flag|].
  split. { change (cl_T_ctrl_flag (pa_cooling (nightHouse 10 1 5))) with (cl_T_ctrl_flag (pa_cooling (@smallOffice R _))). cbn. unfold Rlit. lra. }
  split. { change (st_infiltrationRate (pa_structure (nightHouse 10 1 5))) with (@zn R _ 1). rewrite zn_R. lra. }
  split. { change (pa_ventilation (nightHouse 10 1 5)) with (pa_ventilation (@smallOffice R _)). cbn. unfold Rlit. lra. }
  apply nh_rows.
Qed.
Lemma fan_case : let p := house 10 0 1 0 in sound p /\ exists m rows qh qc t tc, monthlyAll (map_params Fin p) (fin_weather (steadyYear 30)) = Ok m /\ simulateMonthly (map_params Fin p) (fin_weather (steadyYear 30)) = Ok rows /\
  ne_ht (mr_needs m) = map Fin qh /\ ne_cl (mr_needs m) = map Fin qc /\ nth_error (te_h (mr_temps m)) 0 = Some (Fin t) /\ nth_error (te_c (mr_temps m)) 0 = Some (Fin tc) /\
  ph_rhoCpAir (pa_phys p) * (ht_tempOcc (pa_heating p) + ht_dT_supp (pa_heating p) - t) + Rdblmin <> 0 /\
  ph_rhoCpAir (pa_phys p) * (tc - (cl_tempOcc (pa_cooling p) - cl_dT_supp (pa_cooling p))) + Rdblmin <> 0.
Proof.
  cbv zeta. split; [apply house_sound|]. destruct warm_case as (_ & _ & _ & _ & _ & _ & _ & m & rows & qh & qc & M & SM & H & C & _). exists m, rows, qh, qc, 24, 28.
  split; [exact M|]. split; [exact SM|]. split; [exact H|]. split; [exact C|].
  destruct (house_months 10 0 1 0 30 m 0) as [MD _]; [rewrite Rabs_right; lra|rewrite Rabs_right; lra|exact M|lia|]. cbv zeta in MD.
  split; [exact (md_t _ _ _ _ _ _ _ _ _ _ _ MD)|]. split; [exact (md_tc _ _ _ _ _ _ _ _ _ _ _ MD)|]. pose proof Rdblmin_pos as P.
  change (ph_rhoCpAir (pa_phys (house 10 0 1 0))) with (ph_rhoCpAir (pa_phys (@smallOffice R _))).
  change (ht_tempOcc (pa_heating (house 10 0 1 0))) with (ht_tempOcc (pa_heating (@smallOffice R _))). change (ht_dT_supp (pa_heating (house 10 0 1 0))) with (ht_dT_supp (pa_heating (@smallOffice R _))).
  change (cl_tempOcc (pa_cooling (house 10 0 1 0))) with (cl_tempOcc (pa_cooling (@smallOffice R _))). change (cl_dT_supp (pa_cooling (house 10 0 1 0))) with (cl_dT_supp (pa_cooling (@smallOffice R _))).
  set (d := Rdblmin) in *. clearbody d. cbn. unfold Rlit. split; apply Rgt_not_eq; lra.
Qed.
