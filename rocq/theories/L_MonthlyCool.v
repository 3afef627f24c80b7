(** Management level and cooling temperature. *)
From Coq Require Import Reals Lra Psatz ZArith List Bool Lia.
From Verif Require Import Base Num Xr M_Params M_Hourly M_Monthly M_Map L_Xr L_HourlyShape L_HourlyFin2 S_Calendar S_Schedule S_Results S_Monthly
  S_MonthlySound S_MonthlyHeat S_MonthlyPlant S_Physical S_MonthlyBalance S_MonthlyTemp L_Monthly L_Monthly2 L_Monthly3 L_Monthly4 L_Monthly5 L_Monthly6 L_MonthlyFin L_MonthlyFin2 L_MonthlyNaN L_MonthlyGain L_MonthlyVent L_MonthlyNeed L_MonthlyTemp L_MonthlyPlant
  L_MonthlyCase L_MonthlyBalance L_MonthlyWeek L_MonthlyNight E_SmallOffice E_Monthly E_House E_NightHouse E_ShortHouse L_MonthlyHouse L_MonthlyHouse2.
Import ListNotations.
Open Scope R_scope.

(** *** The first period *)
Lemma decayMean_slope tau s s' q : 0 < tau -> 0 < pe_t q -> s' <= s -> decayMean tau s q - decayMean tau s' q <= s - s'.
Proof.
  intros H T L. unfold decayMean. rewrite zn_R. ops. assert (X : 0 < pe_t q / tau) by (apply Rmult_lt_0_compat; [lra|now apply Rinv_0_lt_compat]). destruct (exp_mean _ X) as [_ B].
  replace (- (1) * pe_t q / tau) with (- (pe_t q / tau)) by (field; lra). set (e := exp (- (pe_t q / tau))) in *. replace ((1 - e) / (pe_t q / tau)) with (tau / pe_t q * (1 - e)) in B by (field; lra).
  set (k := tau / pe_t q * (1 - e)) in *. replace (tau / pe_t q * (s - pe_Te q - pe_dT q) * (1 - e)) with (k * (s - pe_Te q - pe_dT q)) by (unfold k; ring). replace (tau / pe_t q * (s' - pe_Te q - pe_dT q) * (1 - e)) with (k * (s' - pe_Te q - pe_dT q)) by (unfold k; ring).
  clearbody k. assert (0 <= (1 - k) * (s - s')) by (apply Rmult_le_pos; lra). lra.
Qed.
Lemma max_slope a b u d : 0 <= d -> a - b <= d -> Rmax a u - Rmax b u <= d.
Proof. intros D H. unfold Rmax. destruct (Rle_dec a u), (Rle_dec b u); lra. Qed.
Lemma min_slope a b u d : 0 <= d -> a - b <= d -> Rmin a u - Rmin b u <= d.
Proof. intros D H. unfold Rmin. destruct (Rle_dec a u), (Rle_dec b u); lra. Qed.
(** Raising the cooling set-point by [d] and lowering the heating one by [d]: the first mean falls by at most [d], the others do not fall. *)
Lemma cooling_shift tau hc c u d q0 qs : 0 < tau -> (forall q, In q (q0 :: qs) -> 0 < pe_t q) -> 0 <= d ->
  exists a b l l', coolingPeriods tau hc c u (q0 :: qs) = a :: l /\ coolingPeriods tau (hc - d) (c + d) u (q0 :: qs) = b :: l' /\ a - b <= d /\ Forall2 Rle l l'.
Proof.
  intros H P D. unfold coolingPeriods. cbn [zipw]. do 4 eexists. split; [reflexivity|]. split; [reflexivity|]. split.
  - rewrite !nmax_R. apply max_slope; [exact D|]. rewrite !nmin_R. pose proof (min_slope hc (hc - d) u d D ltac:(lra)) as M.
    assert (L : Rmin (hc - d) u <= Rmin hc u) by (apply Rle_min_compat_r; lra).
    eapply Rle_trans; [apply decayMean_slope; [exact H|apply P; now left|exact L]|exact M].
  - assert (Q : Forall2 Rle (decayChain tau c (firstn 4 (q0 :: qs))) (decayChain tau (c + d) (firstn 4 (q0 :: qs)))).
    { apply chain_mono; [exact H| |lra]. intros q I. apply P. rewrite <- (firstn_skipn 4 (q0 :: qs)). apply in_or_app. now left. }
    assert (S : Forall2 Rle (map (fun x => nmax x u) (decayChain tau c (firstn 4 (q0 :: qs)))) (map (fun x => nmax x u) (decayChain tau (c + d) (firstn 4 (q0 :: qs))))).
    { clear P. induction Q; cbn [map]; constructor; [rewrite !nmax_R; now apply max_mono|assumption]. }
    assert (P' : forall q, In q qs -> 0 < pe_t q) by (intros q I; apply P; now right). clear P Q.
    revert S. generalize (map (fun x => nmax x u) (decayChain tau c (firstn 4 (q0 :: qs)))) (map (fun x => nmax x u) (decayChain tau (c + d) (firstn 4 (q0 :: qs)))).
    intros l l' S. revert qs P'. induction S as [|x y l l' X S IH]; intros [|q qs] P; cbn [zipw]; constructor.
    + rewrite !nmax_R. apply max_mono, decayMean_mono; [exact H|apply P; now left|exact X].
    + apply IH. intros v I. apply P. now right.
Qed.
Lemma weekMean_shift oc (c d f : R) a b l l' : 0 <= oc_wk_day oc -> 0 <= oc_wk_nt oc -> 0 <= oc_wke_tot oc -> oc_wke_tot oc <= 5 * oc_wk_day oc -> 0 <= d -> a - b <= d -> Forall2 Rle l l' ->
  weekMean oc c f (a :: l) <= weekMean oc (c + d) f (b :: l').
Proof.
  intros A B C K D S F. unfold weekMean. rewrite !zn_R. change (@accumulate R _ (a :: l)) with (vsum (a :: l)). change (@accumulate R _ (b :: l')) with (vsum (b :: l')). rewrite !vsum_R. ops.
  change (Rsum (a :: l)) with (a + Rsum l). change (Rsum (b :: l')) with (b + Rsum l'). pose proof (sum_mono _ _ F) as SM.
  destruct (Reqb f 1).
  - assert (N : nth 1 (a :: l) c <= nth 1 (b :: l') (c + d)) by (cbn [nth]; destruct F; cbn [nth]; [lra|assumption]).
    set (n := nth 1 (a :: l) c) in *. set (n' := nth 1 (b :: l') (c + d)) in *. clearbody n n'.
    assert (n * oc_wk_nt oc <= n' * oc_wk_nt oc) by (apply Rmult_le_compat_r; lra).
    assert ((a + Rsum l) / 5 * oc_wke_tot oc <= ((b + Rsum l') / 5 + d / 5) * oc_wke_tot oc) by (apply Rmult_le_compat_r; lra).
    assert (d * oc_wke_tot oc <= d * (5 * oc_wk_day oc)) by (apply Rmult_le_compat_l; lra).
    apply Rmin_glb; [eapply Rle_trans; [apply Rmin_l|lra]|eapply Rle_trans; [apply Rmin_r|lra]].
  - assert (0 <= d * (oc_wk_day oc + oc_wk_nt oc + oc_wke_tot oc)) by (apply Rmult_le_pos; lra).
    apply Rmin_glb; [eapply Rle_trans; [apply Rmin_l|lra]|eapply Rle_trans; [apply Rmin_r|lra]].
Qed.

(** *** Two levels *)
Lemma bem_pair p w m m' x x' z z' : sound p -> 1 <= week_days (pa_population p) -> ntrunc x = Some z -> ntrunc x' = Some z' ->
  monthlyAll (map_params Fin (set_bem p x)) (fin_weather w) = Ok m -> monthlyAll (map_params Fin (set_bem p x')) (fin_weather w) = Ok m' ->
  forall i t t', nth_error (te_c (mr_temps m)) i = Some (Fin t) -> nth_error (te_c (mr_temps m')) i = Some (Fin t') ->
  exists tau q0 qs, 0 < tau /\ (forall q, In q (q0 :: qs) -> 0 < pe_t q) /\ let oc := scheduleAndOccupancy (pa_population p) in let f := cl_T_ctrl_flag (pa_cooling p) in
    let mean r := weekMean oc (cl_tempOcc (pa_cooling p) + r) f (coolingPeriods tau (ht_tempOcc (pa_heating p) - r) (cl_tempOcc (pa_cooling p) + r) (cl_tempUnocc (pa_cooling p)) (q0 :: qs)) in
    t = mean (bem_relief z) /\ t' = mean (bem_relief z').
Proof.
  intros S D X X' M M' i t t' T T'.
  apply monthlyAll_run in M. destruct (run_fin _ _ _ (sound_bem p x z S X) M) as (r & E & F). apply monthlyAll_run in M'. destruct (run_fin _ _ _ (sound_bem p x' z' S X') M') as (r' & E' & F').
  rewrite (fr_temps _ _ F) in T. rewrite (fr_temps _ _ F') in T'. cbn [fin_temps te_c] in T, T'.
  apply nth_map_fin in T. destruct T as (y & T & Y). injection Y as <-. apply nth_map_fin in T'. destruct T' as (y' & T' & Y'). injection Y' as <-.
  assert (Eoc : mr_occ r' = mr_occ r) by (rewrite (rn_oc _ _ _ E), (rn_oc _ _ _ E'); reflexivity).
  assert (Ebd : mr_bd r' = mr_bd r). { pose proof (rn_bd _ _ _ E') as B'. rewrite Eoc, (rn_bd _ _ _ E) in B'. apply ok_inj in B'. now symmetry. }
  assert (Elu : mr_lu r' = mr_lu r). { rewrite (rn_lu _ _ _ E), (rn_lu _ _ _ E'), Ebd. reflexivity. }
  assert (EH : mr_H_tr r' = mr_H_tr r) by (rewrite (rn_H _ _ _ E), (rn_H _ _ _ E'); reflexivity).
  assert (Es : mr_Esol r' = mr_Esol r).
  { destruct (rn_sol _ _ _ E) as (ws & W & ->). destruct (rn_sol _ _ _ E') as (ws' & W' & ->). cbn [set_bem pa_structure] in W, W'. rewrite W in W'. apply ok_inj in W'. now subst ws'. }
  assert (Eg : mr_gains r' = mr_gains r). { rewrite (rn_gains _ _ _ E), (rn_gains _ _ _ E'), Elu, Eoc. reflexivity. }
  pose proof (rn_temps _ _ _ E) as B. pose proof (rn_temps _ _ _ E') as B'. cbv zeta in B, B'. rewrite Eoc, Ebd, EH, Es, Eg in B'.
  unfold interiorTemp in B, B'. rewrite (relief (set_bem p x) z X) in B. rewrite (relief (set_bem p x') z' X') in B'. cbn [obind] in B, B'. apply ok_inj in B. apply ok_inj in B'.
  rewrite <- B in T. rewrite <- B' in T'. clear B B'. cbn [te_c] in T, T'. rewrite nth_error_map in T, T'. cbn [set_bem pa_heating pa_cooling pa_structure pa_ventilation] in T, T'.
  match type of T with option_map _ (nth_error ?l i) = _ => set (qs := l) in * end.
  match type of T' with option_map _ (nth_error ?l i) = _ => change l with qs in T' end.
  destruct (nth_error qs i) as [q|] eqn:Q; [|discriminate T]. cbn [option_map] in T, T'. injection T as <-. injection T' as <-.
  apply nth_error_In in Q. assert (Q' := Q). apply (zip5_in (periods (mr_occ r) _)) in Q'. destruct Q' as (xa & xb & xc & xd & xe & ->).
  rewrite (rn_oc _ _ _ E). cbn [set_bem pa_population]. pose proof (sound_occ p S) as (O1 & O2 & _). pose proof (so_hours p S) as SH.
  unfold periods at 1 2. do 3 eexists. split; [|split; [|split; reflexivity]].
  - change (0 < timeConstant p (mr_H_tr r + ve_H_ve (pa_ventilation p))). rewrite cap_R. pose proof (so_cap p S). pose proof (so_loss p S). rewrite (rn_H _ _ _ E). cbn [set_bem pa_structure]. rewrite UA_R by apply S.
    unfold Rdiv. apply Rmult_lt_0_compat; [apply Rmult_lt_0_compat; [assumption|now apply Rinv_0_lt_compat]|lra].
  - intros q J. rewrite O1, O2 in J. repeat (destruct J as [<-|J]; [cbn [pe_t]; lra|]). destruct J.
Qed.
Lemma weights_eq po : let oc := scheduleAndOccupancy po in oc_wk_day oc = occupied_share po /\ oc_wke_tot oc = 1 - occupied_share po - (24 - day_length po) * (week_days po - 1) / 168.
Proof.
  cbv zeta. pose proof (weights_sum po) as W. cbv zeta in W. assert (A : oc_wk_day (scheduleAndOccupancy po) = occupied_share po /\ oc_wk_nt (scheduleAndOccupancy po) = (24 - day_length po) * (week_days po - 1) / 168).
  { unfold scheduleAndOccupancy, hoursInWeek, occupied_share. cbn [oc_wk_day oc_wk_nt]. rewrite day_length_eq, week_days_eq, !zn_R. ops. split; field. }
  destruct A as [A1 A2]. rewrite A1, A2 in W. split; [exact A1|lra].
Qed.
Lemma C32_bem_cooling2_l p w m m' x x' z z' : sound p -> 1 <= week_days (pa_population p) -> ntrunc x = Some z -> ntrunc x' = Some z' -> (1 <= z <= z')%Z -> (z' <= 3)%Z ->
  (let working := occupied_share (pa_population p) in let nights := (24 - day_length (pa_population p)) * (week_days (pa_population p) - 1) / 168 in 1 - working - nights <= 5 * working) \/
  cl_T_ctrl_flag (pa_cooling p) <> 1 \/ cl_tempOcc (pa_cooling p) + bem_relief z' <= cl_tempUnocc (pa_cooling p) ->
  monthlyAll (map_params Fin (set_bem p x)) (fin_weather w) = Ok m -> monthlyAll (map_params Fin (set_bem p x')) (fin_weather w) = Ok m' ->
  forall i t t', nth_error (te_c (mr_temps m)) i = Some (Fin t) -> nth_error (te_c (mr_temps m')) i = Some (Fin t') -> t <= t'.
Proof.
  intros S D X X' Z1 Z2 C M M' i t t' T T'. pose proof (relief_mono z z' Z1 Z2) as RM. destruct C as [C|[C|C]].
  - destruct (bem_pair p w m m' x x' z z' S D X X' M M' i t t' T T') as (tau & q0 & qs & P & Q & A & B). cbv zeta in A, B, C. subst t t'.
    destruct (weights (pa_population p) (so_hours p S) (conj D (proj2 (so_days p S)))) as (W1 & W2 & W3 & W4). destruct (weights_eq (pa_population p)) as [E1 E2]. cbv zeta in *.
    set (d := bem_relief z' - bem_relief z). destruct (cooling_shift tau (ht_tempOcc (pa_heating p) - bem_relief z) (cl_tempOcc (pa_cooling p) + bem_relief z) (cl_tempUnocc (pa_cooling p)) d q0 qs P Q ltac:(unfold d; lra)) as (a & b & l & l' & L1 & L2 & L3 & L4).
    rewrite L1. replace (ht_tempOcc (pa_heating p) - bem_relief z') with (ht_tempOcc (pa_heating p) - bem_relief z - d) by (unfold d; lra).
    replace (cl_tempOcc (pa_cooling p) + bem_relief z') with (cl_tempOcc (pa_cooling p) + bem_relief z + d) by (unfold d; lra). rewrite L2.
    apply weekMean_shift; try assumption; [rewrite E1, E2; exact C|unfold d; lra].
  - destruct (bem_pair p w m m' x x' z z' S D X X' M M' i t t' T T') as (tau & q0 & qs & P & Q & A & B). cbv zeta in A, B. subst t t'.
    pose proof (weights_sum (pa_population p)) as W. cbv zeta in W. rewrite !weekMean_flat by assumption. lra.
  - exact (C32_bem_cooling_l p w m m' x x' z z' S D X X' Z1 Z2 C M M' i t t' T T').
Qed.

(** *** The light house *)
Section Short.
Let q : params_t R := shortHouse.
Let po : population_t R := mkPopulation (zn 9) (zn 8) (zn 2) (zn 1) (zn 25) (zn 150) (zn 0).
Lemma sh_length : day_length po = 1.
Proof. unfold day_length. cbn [po po_hoursEnd po_hoursStart]. rewrite !zn_R. destruct (Rlt_dec (9 - 8) 0); lra. Qed.
Lemma sh_days : week_days po = 2.
Proof. unfold week_days. cbn [po po_daysEnd po_daysStart]. rewrite !zn_R. destruct (Rlt_dec (2 - 1 + 1) 0); lra. Qed.
Lemma sh_UA : envelope_UA (@lightStructure R _) = 90.
Proof. exact (house_UA (zn 0)). Qed.
Lemma sh_cap : heat_capacity (@lightStructure R _) = 1620000.
Proof. unfold heat_capacity. cbn [lightStructure houseStructure st_interiorHeatCapacity st_wallHeatCapacity st_floorArea]. rewrite !zn_R. lra. Qed.
Lemma sh_Hve : ve_H_ve (pa_ventilation q) = 0.
Proof. change (ve_H_ve (pa_ventilation q)) with (@zn R _ 0). apply zn_R. Qed.
Lemma sh_sound : sound q.
Proof.
  destruct (house_sound (zn 0) (zn 0) (zn 0) (zn 0)). constructor; try assumption.
  - change (pa_population q) with po. rewrite sh_length. lra.
  - change (pa_population q) with po. rewrite sh_days. lra.
  - change (pa_structure q) with (@lightStructure R _). rewrite sh_cap. lra.
Qed.
Lemma sh_loss : room_loss q = 90.
Proof. unfold room_loss. change (pa_structure q) with (@lightStructure R _). rewrite sh_UA, sh_Hve. lra. Qed.
Lemma sh_tau : room_tau q = 5.
Proof. unfold room_tau. rewrite sh_loss. change (pa_structure q) with (@lightStructure R _). rewrite sh_cap. lra. Qed.
Context (x : R).
Let p : params_t R := set_bem q x.
Lemma sh_run z te : ntrunc x = Some z -> exists m, monthlyAll (map_params Fin p) (fin_weather (steadyYear te)) = Ok m.
Proof.
  intros Z. assert (G : exists rows, simulateMonthly (map_params Fin p) (fin_weather (steadyYear te)) = Ok rows).
  { apply C18_monthly_defined_l. split.
    { intros v I. cbn in I. repeat (destruct I as [<-|I]; [reflexivity|]). destruct I. }
    split. { cbn. repeat split; intros r I; repeat (destruct I as [<-|I]; [reflexivity|]); destruct I. }
    split. { intros row I. exists (zn 200). cbn in I. split; [repeat (destruct I as [<-|I]; [cbn; tauto|]); destruct I|]. rewrite !zn_fin, eqb_fin. apply Reqb_false. rewrite !zn_R. lra. }
    split. { intros y I. left. change (st_windowSDF _) with (map Fin (repeat (@zn R _ 1) 9)) in I. rewrite <- repeat_fin in I. apply repeat_spec in I. subst y. rewrite zn_R. apply (trunc_Z 1). lia. }
    exists z. change (bu_bem _) with (Fin x). exact Z. }
  destruct G as (rows & G). exact (simulate_all _ _ _ G).
Qed.
Lemma sh_case te : week_case p (steadyYear te).
Proof.
  constructor.
  - constructor; cbn [p q set_bem shortHouse house smallOffice lamps pa_population pa_lighting po_hoursEnd po_hoursStart po_daysEnd po_daysStart li_n_day_start li_n_day_end li_n_weeks]; rewrite ?zn_R; cbn [lit R_num]; unfold Rlit; lra.
  - change (pa_population p) with po. rewrite sh_days. lra.
  - apply nh_sun.
Qed.
Lemma sh_idle : idle_gain p = 0.
Proof.
  unfold idle_gain, gain_unoccupied. cbn [p q set_bem shortHouse house smallOffice lamps pa_population pa_lighting pa_building po_heatGainPerPerson po_densityUnocc bu_elecApplianceUnocc bu_gasApplianceUnocc li_densityUnocc].
  rewrite !zn_R. unfold Rdiv. ring.
Qed.
Lemma sh_solar te i : solar_gain (pa_structure p) (steadyYear te) i = 0.
Proof. exact (nh_solar 10 1 5 te i). Qed.
Lemma sh_target te i : (i < 12)%nat -> target p (steadyYear te) i (week_night p (steadyYear te) i) = te /\ target p (steadyYear te) i (weekend_day p (steadyYear te) i) = te /\ target p (steadyYear te) i (weekend_night p (steadyYear te) i) = te.
Proof.
  intros I. unfold target. rewrite sh_idle, sh_solar. cbn [week_night weekend_day weekend_night sp_out]. change (pa_population p) with po. rewrite sh_length.
  assert (A : day_mean 1 (nth i (mw_mhdbt (@steadyYear R _ te)) []) = te).
  { unfold day_mean. apply (nh_mean (in_window 1) te i 7 I); [lia|]. unfold in_window. destruct (Rle_dec 7 (INR 7)) as [Q|Q]; [|exfalso; apply Q; cbn; lra]. destruct (Rlt_dec (INR 7) (7 + 1)) as [V|V]; [reflexivity|]. exfalso. apply V. cbn. lra. }
  assert (B : night_mean 1 (nth i (mw_mhdbt (@steadyYear R _ te)) []) = te).
  { unfold night_mean. apply (nh_mean (fun k => negb (in_window 1 k)) te i 0 I); [lia|]. unfold in_window. destruct (Rle_dec 7 (INR 0)) as [Q|Q]; [exfalso; cbn in Q; lra|reflexivity]. }
  rewrite A, B. repeat split; unfold Rdiv; ring.
Qed.
(** Its mean temperature at 27 degrees outdoors, from [s] in the first night and set-point [c]. *)
Lemma sh_week s c : 23 <= s <= 24 -> 28 <= c <= 29 ->
  let E := exp (- (23 / 5)) in let e := exp (- (1 / 5)) in let f := 5 / 23 * (1 - E) in let g := 5 * (1 - e) in
  week_temperature p (steadyYear 27) 0 1 s c (245 / 10) =
    Rmin (c * (2 / 168) + (27 + (c - 27) * E * g) * (23 / 168) + (5 * 27 + (s - 27) * f + (c - 27) * (E * g + E * e * f + E * E * e * g + E * E * e * e * f)) / 5 * (143 / 168)) c.
Proof.
  intros S C E e f g. destruct (sh_target 27 0 ltac:(lia)) as (T1 & T2 & T3).
  unfold week_temperature, span_means, weekend_spans. cbn [drift combine map fst snd nth]. rewrite T1, T2, T3. unfold held_mean. rewrite T1, T2, T3.
  assert (Hd : sp_hours (weekend_day p (steadyYear 27) 0) = 1) by (transitivity (day_length po); [reflexivity|exact sh_length]).
  assert (Hn : sp_hours (week_night p (steadyYear 27) 0) = 23) by (transitivity (24 - day_length po); [reflexivity|rewrite sh_length; lra]).
  assert (Hm : sp_hours (weekend_night p (steadyYear 27) 0) = 23) by (transitivity (24 - day_length po); [reflexivity|rewrite sh_length; lra]).
  assert (PN : sp_part (week_night p (steadyYear 27) 0) = 23 / 168) by (transitivity ((24 - day_length po) * (week_days po - 1) / 168); [reflexivity|rewrite sh_length, sh_days; lra]).
  assert (OS : occupied_share (pa_population p) = 2 / 168) by (change (pa_population p) with po; unfold occupied_share; rewrite sh_length, sh_days; lra).
  assert (TA : room_tau p = 5) by exact sh_tau. rewrite Hd, Hn, Hm, PN, OS, TA.
  unfold after, mean_over. replace (5 / 1) with 5 by lra. fold E e.
  assert (E0 : 0 < E < 1). { split; [apply exp_pos|]. unfold E. apply Rlt_le_trans with (exp 0); [apply exp_increasing; lra|rewrite exp_0; lra]. }
  assert (e0 : 0 < e < 1). { split; [apply exp_pos|]. unfold e. apply Rlt_le_trans with (exp 0); [apply exp_increasing; lra|rewrite exp_0; lra]. }
  clearbody E e.
  assert (EE : 0 < E * E) by (apply Rmult_lt_0_compat; lra). assert (Ee : 0 < E * e) by (apply Rmult_lt_0_compat; lra). assert (EEe : 0 < E * E * e) by (apply Rmult_lt_0_compat; lra). assert (EEee : 0 < E * E * e * e) by (apply Rmult_lt_0_compat; lra).
  assert (K1 : 0 <= (c - 27) * E) by (apply Rmult_le_pos; lra). assert (K2 : 0 <= (c - 27) * (E * e)) by (apply Rmult_le_pos; lra). assert (K3 : 0 <= (c - 27) * (E * E * e)) by (apply Rmult_le_pos; lra). assert (K4 : 0 <= (c - 27) * (E * E * e * e)) by (apply Rmult_le_pos; lra).
  rewrite (Rmax_left (27 + (c - 27) * E)) by lra.
  replace (27 + (27 + (c - 27) * E - 27) * e) with (27 + (c - 27) * (E * e)) by ring. rewrite (Rmax_left (27 + (c - 27) * (E * e))) by lra.
  replace (27 + (27 + (c - 27) * (E * e) - 27) * E) with (27 + (c - 27) * (E * E * e)) by ring. rewrite (Rmax_left (27 + (c - 27) * (E * E * e))) by lra.
  replace (27 + (27 + (c - 27) * (E * E * e) - 27) * e) with (27 + (c - 27) * (E * E * e * e)) by ring. rewrite (Rmax_left (27 + (c - 27) * (E * E * e * e))) by lra.
  assert (F0 : 0 < f < 5 / 23) by (unfold f; lra). assert (G0 : 0 < g) by (unfold g; lra).
  replace (27 + (s - 27) * (5 / 23) * (1 - E)) with (27 + (s - 27) * f) by (unfold f; ring).
  assert (Q0 : 0 <= (27 - s) * (5 / 23 - f)) by (apply Rmult_le_pos; lra). rewrite (Rmax_left (27 + (s - 27) * f)) by lra.
  replace (27 + (27 + (c - 27) * E - 27) * 5 * (1 - e)) with (27 + (c - 27) * E * g) by (unfold g; ring).
  replace (27 + (27 + (c - 27) * (E * e) - 27) * (5 / 23) * (1 - E)) with (27 + (c - 27) * (E * e) * f) by (unfold f; ring).
  replace (27 + (27 + (c - 27) * (E * E * e) - 27) * 5 * (1 - e)) with (27 + (c - 27) * (E * E * e) * g) by (unfold g; ring).
  replace (27 + (27 + (c - 27) * (E * E * e * e) - 27) * (5 / 23) * (1 - E)) with (27 + (c - 27) * (E * E * e * e) * f) by (unfold f; ring).
  assert (Q1 : 0 <= (c - 27) * E * g) by (apply Rmult_le_pos; lra). assert (Q2 : 0 <= (c - 27) * (E * e) * f) by (apply Rmult_le_pos; lra). assert (Q3 : 0 <= (c - 27) * (E * E * e) * g) by (apply Rmult_le_pos; lra). assert (Q4 : 0 <= (c - 27) * (E * E * e * e) * f) by (apply Rmult_le_pos; lra).
  rewrite !Rmax_left by lra. unfold Rsum. cbn [fold_right]. f_equal. field.
Qed.
End Short.
Lemma exp_small : exp (- (23 / 5)) <= 1 / 44.
Proof.
  replace (- (23 / 5)) with (- (23 / 50) * 10) by lra. assert (A : 0 < exp (23 / 50)) by apply exp_pos. assert (B : 1 + 23 / 50 < exp (23 / 50)) by (apply exp_ineq1; lra).
  assert (C : 44 <= exp (23 / 5)).
  { replace (23 / 5) with (23 / 50 + 23 / 50 + 23 / 50 + 23 / 50 + 23 / 50 + 23 / 50 + 23 / 50 + 23 / 50 + 23 / 50 + 23 / 50) by lra. rewrite !exp_plus. set (y := exp (23 / 50)) in *. clearbody y.
    replace (y * y * y * y * y * y * y * y * y * y) with (y ^ 10) by ring. apply Rle_trans with ((146 / 100) ^ 10); [lra|apply pow_incr; lra]. }
  replace (- (23 / 50) * 10) with (- (23 / 5)) by lra. rewrite exp_Ropp. replace (1 / 44) with (/ 44) by lra. apply Rinv_le_contravar; lra.
Qed.
(** More management, lower cooling temperature. *)
Lemma C32_bem_cooling_refuted_l : exists p w m m' t t', sound p /\ 1 <= week_days (pa_population p) /\
  monthlyAll (map_params Fin (set_bem p 1)) (fin_weather w) = Ok m /\ monthlyAll (map_params Fin (set_bem p 2)) (fin_weather w) = Ok m' /\
  nth_error (te_c (mr_temps m)) 0 = Some (Fin t) /\ nth_error (te_c (mr_temps m')) 0 = Some (Fin t') /\ t' < t.
Proof.
  assert (Z1 : ntrunc 1 = Some 1%Z) by (apply (trunc_Z 1); lia). assert (Z2 : ntrunc 2 = Some 2%Z) by (apply (trunc_Z 2); lia).
  destruct (sh_run 1 1 27 Z1) as (m & M). destruct (sh_run 2 2 27 Z2) as (m' & M'). exists shortHouse, (steadyYear 27), m, m'.
  pose proof (sound_bem _ 1 1 sh_sound Z1) as S1. pose proof (sound_bem _ 2 2 sh_sound Z2) as S2.
  assert (FL : forall x, cl_T_ctrl_flag (pa_cooling (set_bem shortHouse x)) = 1) by (intros x; change (cl_T_ctrl_flag (pa_cooling (set_bem shortHouse x))) with (cl_T_ctrl_flag (pa_cooling (@smallOffice R _))); cbn; unfold Rlit; lra).
  destruct (C67_l _ _ m 1 0 S1 (sh_case 1 27) Z1 M ltac:(lia)) as [_ A]. destruct (C67_l _ _ m' 2 0 S2 (sh_case 2 27) Z2 M' ltac:(lia)) as [_ A']. cbv zeta in A, A'. specialize (A (FL 1)). specialize (A' (FL 2)).
  cbn [set_bem pa_heating pa_cooling] in A, A'.
  assert (H1 : ht_tempOcc (pa_heating (@shortHouse R _)) = 24) by (change (ht_tempOcc (pa_heating (@shortHouse R _))) with (@zn R _ 24); apply zn_R).
  assert (H2 : cl_tempOcc (pa_cooling (@shortHouse R _)) = 28) by (change (cl_tempOcc (pa_cooling (@shortHouse R _))) with (@zn R _ 28); apply zn_R).
  assert (H3 : cl_tempUnocc (pa_cooling (@shortHouse R _)) = 245 / 10) by (change (cl_tempUnocc (pa_cooling (@shortHouse R _))) with (Rlit 245 10); unfold Rlit; lra).
  rewrite H1, H2, H3 in A, A'. unfold bem_relief in A, A'. cbn [Z.eqb Pos.eqb] in A, A'. rewrite Rmin_left in A, A' by lra.
  rewrite sh_week in A by lra. rewrite sh_week in A' by lra. cbv zeta in A, A'.
  eexists. eexists. split; [exact sh_sound|]. split. { change (1 <= week_days (mkPopulation (@zn R _ 9) (zn 8) (zn 2) (zn 1) (zn 25) (zn 150) (zn 0))). rewrite sh_days. lra. }
  split; [exact M|]. split; [exact M'|]. split; [exact A|]. split; [exact A'|]. clear A A' M M'.
  pose proof exp_small as X. pose proof (exp_pos (- (23 / 5))) as X0. set (E := exp (- (23 / 5))) in *.
  assert (e0 : 0 < exp (- (1 / 5)) < 1). { split; [apply exp_pos|]. apply Rlt_le_trans with (exp 0); [apply exp_increasing; lra|rewrite exp_0; lra]. }
  assert (e1 : 4 / 5 < exp (- (1 / 5))) by (replace (4 / 5) with (1 + - (1 / 5)) by lra; apply exp_ineq1; lra).
  set (e := exp (- (1 / 5))) in *. clearbody E e. set (g := 5 * (1 - e)). assert (G : 0 < g < 1) by (unfold g; lra). clearbody g.
  set (f := 5 / 23 * (1 - E)). assert (F : 5 / 23 * (43 / 44) <= f < 5 / 23) by (unfold f; lra). clearbody f.
  assert (B1 : 0 < E * g < E) by (split; [apply Rmult_lt_0_compat; lra|rewrite <- (Rmult_1_r E) at 2; apply Rmult_lt_compat_l; lra]).
  assert (b0 : 0 < E * e < E) by (split; [apply Rmult_lt_0_compat; lra|rewrite <- (Rmult_1_r E) at 2; apply Rmult_lt_compat_l; lra]).
  assert (B2 : 0 < E * e * f < E) by (split; [apply Rmult_lt_0_compat; lra|apply Rlt_trans with (E * e); [rewrite <- (Rmult_1_r (E * e)) at 2; apply Rmult_lt_compat_l|]; lra]).
  assert (b1 : 0 < E * (E * e) < E) by (split; [apply Rmult_lt_0_compat; lra|rewrite <- (Rmult_1_r E) at 3; apply Rmult_lt_compat_l; lra]).
  assert (B3 : 0 < E * E * e * g < E). { replace (E * E * e * g) with (E * (E * e) * g) by ring. split; [apply Rmult_lt_0_compat; lra|]. apply Rlt_trans with (E * (E * e)); [rewrite <- (Rmult_1_r (E * (E * e))) at 2; apply Rmult_lt_compat_l|]; lra. }
  assert (B4 : 0 < E * E * e * e * f < E). { assert (0 < e * f < 1) by (split; [apply Rmult_lt_0_compat; lra|apply Rle_lt_trans with (1 * f); [apply Rmult_le_compat_r|]; lra]). replace (E * E * e * e * f) with (E * (E * e) * (e * f)) by ring. split; [apply Rmult_lt_0_compat; lra|]. apply Rlt_trans with (E * (E * e)); [rewrite <- (Rmult_1_r (E * (E * e))) at 2; apply Rmult_lt_compat_l|]; lra. }
  set (y := E * g + E * e * f + E * E * e * g + E * E * e * e * f). assert (Y : 0 < y < 4 * E) by (unfold y; lra). clearbody y.
  replace ((28 + 0 - 27) * E * g) with (E * g) by ring. replace ((28 + 1 / 2 - 27) * E * g) with (3 / 2 * (E * g)) by field. set (v := E * g) in *. clearbody v.
  apply Rmin_glb_lt; (eapply Rle_lt_trans; [apply Rmin_l|]); lra.
Qed.
Lemma office_weekend : let po := pa_population (scheduleOffice 8 17 1 5) in let working := occupied_share po in let nights := (24 - day_length po) * (week_days po - 1) / 168 in 1 - working - nights <= 5 * working.
Proof.
  cbv zeta. unfold occupied_share. set (po := pa_population (scheduleOffice 8 17 1 5)).
  assert (A : day_length po = 9) by (unfold day_length; cbn [po scheduleOffice week_schedule with_population pa_population po_hoursEnd po_hoursStart]; destruct (Rlt_dec _ 0) as [L|L]; revert L; cbn; lra).
  assert (B : week_days po = 5) by (unfold week_days; cbn [po scheduleOffice week_schedule with_population pa_population po_daysEnd po_daysStart]; destruct (Rlt_dec _ 0) as [L|L]; revert L; cbn; lra).
  rewrite A, B. lra.
Qed.
