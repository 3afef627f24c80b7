(** Indoor temperatures: bounds, set-backs, management level. *)
From Coq Require Import Reals Lra Psatz ZArith List Bool Lia.
From Verif Require Import Base Num Xr M_Params M_Monthly M_Map L_Xr L_HourlyShape L_HourlyFin2 S_Calendar S_Schedule S_Results S_Monthly
  S_MonthlySound S_MonthlyHeat S_Physical L_Monthly L_Monthly2 L_Monthly3 L_Monthly4 L_Monthly5 L_MonthlyFin L_MonthlyFin2 L_MonthlyGain L_MonthlyNeed E_SmallOffice E_Monthly.
Import ListNotations.
Open Scope R_scope.

(** *** Exponential decay *)
Lemma decay_factor tau t : 0 < tau -> 0 <= t -> 0 < exp (- (1) * t / tau) <= 1.
Proof.
  intros H T. split; [apply exp_pos|]. assert (G : - (1) * t / tau <= 0).
  { assert (0 <= t / tau) by (apply Rmult_le_pos; [lra|apply Rlt_le; now apply Rinv_0_lt_compat]). unfold Rdiv in *. lra. }
  rewrite <- exp_0 at 2. destruct G as [G|G]; [left; now apply exp_increasing|right; now rewrite G].
Qed.
Lemma decayEnd_between tau s q : 0 < tau -> 0 <= pe_t q -> let f := pe_Te q + pe_dT q in Rmin s f <= decayEnd tau s q <= Rmax s f.
Proof.
  intros H T f. unfold decayEnd. rewrite zn_R. ops. pose proof (decay_factor tau (pe_t q) H T) as E. set (e := exp _) in *. clearbody e.
  replace ((s - pe_Te q - pe_dT q) * e + pe_Te q + pe_dT q) with (e * s + (1 - e) * f) by (unfold f; ring).
  destruct (Rle_dec s f) as [L|L].
  - rewrite Rmin_left, Rmax_right by lra. assert (0 <= e * (f - s)) by (apply Rmult_le_pos; lra). assert (0 <= (1 - e) * (f - s)) by (apply Rmult_le_pos; lra). lra.
  - rewrite Rmin_right, Rmax_left by lra. assert (0 <= e * (s - f)) by (apply Rmult_le_pos; lra). assert (0 <= (1 - e) * (s - f)) by (apply Rmult_le_pos; lra). lra.
Qed.
Lemma C32_decay_l tau s t te dt : 0 < tau -> 0 <= t -> exists r, decayEnd (Fin tau) (Fin s) (mkPeriod (Fin t) (Fin te) (Fin dt)) = Fin r /\
  (te + dt <= s -> te + dt <= r <= s) /\ (s <= te + dt -> s <= r <= te + dt).
Proof.
  intros H T. exists (decayEnd tau s (mkPeriod t te dt)). split; [apply (decayEnd_fin tau s (mkPeriod t te dt)); lra|].
  pose proof (decayEnd_between tau s (mkPeriod t te dt) H T) as B. cbn [pe_t pe_Te pe_dT] in B. split; intros L; [rewrite Rmin_right, Rmax_left in B by lra|rewrite Rmin_left, Rmax_right in B by lra]; exact B.
Qed.

(** *** Weekly means *)
Lemma weights po : 0 < day_length po < 24 -> 1 <= week_days po <= 7 -> let oc := scheduleAndOccupancy po in
  0 <= oc_wk_day oc /\ 0 <= oc_wk_nt oc /\ 0 <= oc_wke_tot oc /\ oc_wk_day oc + oc_wk_nt oc + oc_wke_tot oc = 1.
Proof.
  intros H D. cbv zeta. unfold scheduleAndOccupancy, hoursInWeek. cbn [oc_wk_day oc_wk_nt oc_wke_tot]. rewrite day_length_eq, week_days_eq, !zn_R. ops.
  set (h := day_length po) in *. set (d := week_days po) in *. assert (0 <= h * d) by (apply Rmult_le_pos; lra). assert (0 <= (d - 1) * (24 - h)) by (apply Rmult_le_pos; lra).
  repeat split; try lra.
Qed.
Lemma weights_sum po : let oc := scheduleAndOccupancy po in oc_wk_day oc + oc_wk_nt oc + oc_wke_tot oc = 1.
Proof. cbv zeta. unfold scheduleAndOccupancy, hoursInWeek. cbn [oc_wk_day oc_wk_nt oc_wke_tot]. rewrite !zn_R. ops. field. Qed.
Lemma weekMean_le oc (c f : R) tb : weekMean oc c f tb <= c.
Proof. unfold weekMean. ops. apply Rmin_r. Qed.
Lemma weekMean_flat oc (c f : R) tb : f <> 1 -> oc_wk_day oc + oc_wk_nt oc + oc_wke_tot oc = 1 -> weekMean oc c f tb = c.
Proof.
  intros F W. unfold weekMean. rewrite !zn_R. ops. rewrite Reqb_false by exact F. apply Rmin_right. replace (c * oc_wk_day oc + c * oc_wk_nt oc + c * oc_wke_tot oc) with (c * (oc_wk_day oc + oc_wk_nt oc + oc_wke_tot oc)) by ring.
  rewrite W. lra.
Qed.
Definition fives (tb : list R) : Prop := exists a b x d e, tb = [a; b; x; d; e].
Lemma weekMean_ge oc (c u f : R) tb : 0 <= oc_wk_day oc -> 0 <= oc_wk_nt oc -> 0 <= oc_wke_tot oc -> oc_wk_day oc + oc_wk_nt oc + oc_wke_tot oc = 1 ->
  fives tb -> (forall x, In x tb -> u <= x) -> Rmin c u <= weekMean oc c f tb.
Proof.
  intros A B C W (x1 & x2 & x3 & x4 & x5 & ->) U. set (l := Rmin c u). assert (Lc : l <= c) by apply Rmin_l. assert (Lu : l <= u) by apply Rmin_r. clearbody l.
  pose proof (U x1 ltac:(cbn; tauto)). pose proof (U x2 ltac:(cbn; tauto)). pose proof (U x3 ltac:(cbn; tauto)). pose proof (U x4 ltac:(cbn; tauto)). pose proof (U x5 ltac:(cbn; tauto)).
  unfold weekMean, accumulate. cbn [fold_left nth]. rewrite !zn_R. ops. set (m := if Reqb f 1 then (0 + x1 + x2 + x3 + x4 + x5) / 5 else c). set (n := if Reqb f 1 then x2 else c).
  assert (l <= m) by (unfold m; destruct (Reqb f 1); lra). assert (l <= n) by (unfold n; destruct (Reqb f 1); lra). clearbody m n.
  apply Rmin_glb; [|lra]. assert (l * oc_wk_day oc <= c * oc_wk_day oc) by (apply Rmult_le_compat_r; lra). assert (l * oc_wk_nt oc <= n * oc_wk_nt oc) by (apply Rmult_le_compat_r; lra).
  assert (l * oc_wke_tot oc <= m * oc_wke_tot oc) by (apply Rmult_le_compat_r; lra).
  assert (l * (oc_wk_day oc + oc_wk_nt oc + oc_wke_tot oc) = l) by (rewrite W; ring). lra.
Qed.
Lemma heating_fives tau c u oc H a b d e g : let tb := heatingPeriods tau c u (periods oc H a b d e g) in fives tb /\ forall x, In x tb -> u <= x.
Proof.
  cbv zeta. unfold periods, heatingPeriods. cbn [firstn decayChain map zipw]. rewrite !nmax_R. split; [repeat eexists|].
  intros x I. repeat (destruct I as [<-|I]; [apply Rmax_r|]). destruct I.
Qed.
Lemma cooling_fives tau hc c u oc H a b d e g : let tb := coolingPeriods tau hc c u (periods oc H a b d e g) in fives tb /\ forall x, In x tb -> u <= x.
Proof.
  cbv zeta. unfold periods, coolingPeriods. cbn [firstn decayChain map zipw]. rewrite !nmax_R. split; [repeat eexists|].
  intros x I. repeat (destruct I as [<-|I]; [apply Rmax_r|]). destruct I.
Qed.
Lemma relief p z : ntrunc (bu_bem (pa_building p)) = Some z -> @bemAdjust R _ (bu_bem (pa_building p)) = Ok (bem_relief z).
Proof.
  intros E. unfold bemAdjust, bem_relief. rewrite E. destruct z as [|[[[]|[]|]|[[]|[]|]|]|]; cbn [Z.eqb Pos.eqb]; f_equal; rewrite ?zn_R; try reflexivity; cbn [lit R_num]; unfold Rlit; lra.
Qed.

(** *** The means of the run *)
Lemma temps_R p w r z : ntrunc (bu_bem (pa_building p)) = Some z -> run p w r -> exists tau H a b d e g,
  tau = timeConstant p H /\ H = envelopeUA (pa_structure p) + ve_H_ve (pa_ventilation p) /\
  te_h (mr_temps r) = map (fun q => weekMean (mr_occ r) (ht_tempOcc (pa_heating p) - bem_relief z) (ht_T_ctrl_flag (pa_heating p))
     (heatingPeriods tau (ht_tempOcc (pa_heating p) - bem_relief z) (ht_tempUnocc (pa_heating p)) q)) (zip5 (periods (mr_occ r) H) a b d e g) /\
  te_c (mr_temps r) = map (fun q => weekMean (mr_occ r) (cl_tempOcc (pa_cooling p) + bem_relief z) (cl_T_ctrl_flag (pa_cooling p))
     (coolingPeriods tau (ht_tempOcc (pa_heating p) - bem_relief z) (cl_tempOcc (pa_cooling p) + bem_relief z) (cl_tempUnocc (pa_cooling p)) q)) (zip5 (periods (mr_occ r) H) a b d e g).
Proof.
  intros Z E. pose proof (rn_temps _ _ _ E) as B. cbv zeta in B. unfold interiorTemp in B. rewrite (relief p z Z) in B. cbn [obind] in B. apply ok_inj in B.
  exists (timeConstant p (mr_H_tr r + ve_H_ve (pa_ventilation p))), (mr_H_tr r + ve_H_ve (pa_ventilation p)), (bd_Tnt (mr_bd r)), (bd_Tday (mr_bd r)),
    (unoccupiedHeatGain (pa_structure p) (ga_unocc (mr_gains r)) (oc_wkUnocc (mr_occ r)) (bd_wk_nt (mr_bd r)) (mr_Esol r)),
    (unoccupiedHeatGain (pa_structure p) (ga_unocc (mr_gains r)) (oc_weOcc (mr_occ r)) (bd_wke_day (mr_bd r)) (mr_Esol r)),
    (unoccupiedHeatGain (pa_structure p) (ga_unocc (mr_gains r)) (oc_weUnocc (mr_occ r)) (bd_wke_nt (mr_bd r)) (mr_Esol r)).
  split; [reflexivity|]. split; [now rewrite (rn_H _ _ _ E)|]. rewrite <- B. split; reflexivity.
Qed.
Lemma C32_heating_l p w m z : sound p -> ntrunc (bu_bem (pa_building p)) = Some z -> monthlyAll (map_params Fin p) (fin_weather w) = Ok m ->
  let c := ht_tempOcc (pa_heating p) - bem_relief z in
  forall x, In x (te_h (mr_temps m)) -> exists t, x = Fin t /\ t <= c /\ (1 <= week_days (pa_population p) -> Rmin c (ht_tempUnocc (pa_heating p)) <= t) /\ (ht_T_ctrl_flag (pa_heating p) <> 1 -> t = c).
Proof.
  intros S Z M c x I. apply monthlyAll_run in M. destruct (run_fin _ _ _ S M) as (r & E & F). rewrite (fr_temps _ _ F) in I. cbn [fin_temps te_h] in I.
  apply in_map_iff in I. destruct I as (t & <- & I). exists t. split; [reflexivity|].
  destruct (temps_R p w r z Z E) as (tau & H & a & b & d & e & g & _ & _ & TH & _). rewrite TH in I. apply in_map_iff in I. destruct I as (q & <- & I).
  apply zip5_in in I. destruct I as (xa & xb & xc & xd & xe & ->). rewrite (rn_oc _ _ _ E). fold c. split; [apply weekMean_le|]. split.
  - intros D. destruct (weights (pa_population p)) as (W1 & W2 & W3 & W4); [apply S|split; [exact D|apply S]|]. cbv zeta in *.
    destruct (heating_fives tau c (ht_tempUnocc (pa_heating p)) (scheduleAndOccupancy (pa_population p)) H xa xb xc xd xe) as (A & B). now apply weekMean_ge.
  - intros FL. apply weekMean_flat; [exact FL|apply weights_sum].
Qed.
Lemma C32_cooling_l p w m z : sound p -> ntrunc (bu_bem (pa_building p)) = Some z -> monthlyAll (map_params Fin p) (fin_weather w) = Ok m ->
  let c := cl_tempOcc (pa_cooling p) + bem_relief z in
  forall x, In x (te_c (mr_temps m)) -> exists t, x = Fin t /\ t <= c /\ (1 <= week_days (pa_population p) -> Rmin c (cl_tempUnocc (pa_cooling p)) <= t) /\ (cl_T_ctrl_flag (pa_cooling p) <> 1 -> t = c).
Proof.
  intros S Z M c x I. apply monthlyAll_run in M. destruct (run_fin _ _ _ S M) as (r & E & F). rewrite (fr_temps _ _ F) in I. cbn [fin_temps te_c] in I.
  apply in_map_iff in I. destruct I as (t & <- & I). exists t. split; [reflexivity|].
  destruct (temps_R p w r z Z E) as (tau & H & a & b & d & e & g & _ & _ & _ & TC). rewrite TC in I. apply in_map_iff in I. destruct I as (q & <- & I).
  apply zip5_in in I. destruct I as (xa & xb & xc & xd & xe & ->). rewrite (rn_oc _ _ _ E). fold c. split; [apply weekMean_le|]. split.
  - intros D. destruct (weights (pa_population p)) as (W1 & W2 & W3 & W4); [apply S|split; [exact D|apply S]|]. cbv zeta in *.
    destruct (cooling_fives tau (ht_tempOcc (pa_heating p) - bem_relief z) c (cl_tempUnocc (pa_cooling p)) (scheduleAndOccupancy (pa_population p)) H xa xb xc xd xe) as (A & B). now apply weekMean_ge.
  - intros FL. apply weekMean_flat; [exact FL|apply weights_sum].
Qed.
(** A relaxed cooling set-point outside opening hours changes nothing. *)
Lemma C58_l p w m z : sound p -> 1 <= week_days (pa_population p) -> ntrunc (bu_bem (pa_building p)) = Some z -> monthlyAll (map_params Fin p) (fin_weather w) = Ok m ->
  cl_tempOcc (pa_cooling p) + bem_relief z <= cl_tempUnocc (pa_cooling p) -> forall x, In x (te_c (mr_temps m)) -> x = Fin (cl_tempOcc (pa_cooling p) + bem_relief z).
Proof.
  intros S D Z M C x I. destruct (C32_cooling_l p w m z S Z M x I) as (t & -> & A & B & _). specialize (B D). rewrite Rmin_left in B by exact C. f_equal. lra.
Qed.

(** *** Management level *)
Lemma decayEnd_mono tau s s' q : 0 < tau -> 0 <= pe_t q -> s <= s' -> decayEnd tau s q <= decayEnd tau s' q.
Proof.
  intros H T L. unfold decayEnd. rewrite zn_R. ops. pose proof (decay_factor tau (pe_t q) H T) as E. set (e := exp _) in *. clearbody e.
  assert (0 <= (s' - s) * e) by (apply Rmult_le_pos; lra). lra.
Qed.
Lemma decayMean_mono tau s s' q : 0 < tau -> 0 < pe_t q -> s <= s' -> decayMean tau s q <= decayMean tau s' q.
Proof.
  intros H T L. unfold decayMean. rewrite zn_R. ops. pose proof (decay_factor tau (pe_t q) H (Rlt_le _ _ T)) as E. set (e := exp _) in *. clearbody e.
  assert (0 <= tau / pe_t q * (s' - s) * (1 - e)). { apply Rmult_le_pos; [apply Rmult_le_pos; [apply Rlt_le, Rmult_lt_0_compat; [lra|now apply Rinv_0_lt_compat]|lra]|lra]. } lra.
Qed.
Lemma max_mono a b u : a <= b -> Rmax a u <= Rmax b u.
Proof. intros H. apply Rmax_lub; [eapply Rle_trans; [exact H|apply Rmax_l]|apply Rmax_r]. Qed.
Lemma chain_mono tau : 0 < tau -> forall qs s s', (forall q, In q qs -> 0 < pe_t q) -> s <= s' -> Forall2 Rle (decayChain tau s qs) (decayChain tau s' qs).
Proof.
  intros H. induction qs as [|q qs IH]; intros s s' P L; cbn [decayChain]; constructor.
  - apply decayEnd_mono; [exact H|apply Rlt_le, P; now left|exact L].
  - apply IH; [intros x I; apply P; now right|]. apply decayEnd_mono; [exact H|apply Rlt_le, P; now left|exact L].
Qed.
Lemma heating_mono tau c c' u qs : 0 < tau -> (forall q, In q qs -> 0 < pe_t q) -> c <= c' -> Forall2 Rle (heatingPeriods tau c u qs) (heatingPeriods tau c' u qs).
Proof.
  intros H P L. unfold heatingPeriods.
  assert (S : Forall2 Rle (c :: map (fun x => nmax x u) (decayChain tau c (firstn 4 qs))) (c' :: map (fun x => nmax x u) (decayChain tau c' (firstn 4 qs)))).
  { constructor; [exact L|]. assert (Q : Forall2 Rle (decayChain tau c (firstn 4 qs)) (decayChain tau c' (firstn 4 qs))).
    { apply chain_mono; [exact H| |exact L]. intros q I. apply P. rewrite <- (firstn_skipn 4 qs). apply in_or_app. now left. }
    induction Q; cbn [map]; constructor; [rewrite !nmax_R; now apply max_mono|assumption]. }
  revert S. generalize (c :: map (fun x => nmax x u) (decayChain tau c (firstn 4 qs))) (c' :: map (fun x => nmax x u) (decayChain tau c' (firstn 4 qs))).
  intros l l' S. revert qs P. induction S as [|x y l l' X S IH]; intros [|q qs] P; cbn [zipw]; constructor.
  - rewrite !nmax_R. apply max_mono, decayMean_mono; [exact H|apply P; now left|exact X].
  - apply IH. intros v I. apply P. now right.
Qed.
Lemma sum_mono l l' : Forall2 Rle l l' -> Rsum l <= Rsum l'.
Proof. induction 1; [lra|]. change (x + Rsum l <= y + Rsum l'). lra. Qed.
Lemma weekMean_mono oc (c c' f : R) tb tb' : 0 <= oc_wk_day oc -> 0 <= oc_wk_nt oc -> 0 <= oc_wke_tot oc -> c <= c' -> Forall2 Rle tb tb' ->
  weekMean oc c f tb <= weekMean oc c' f tb'.
Proof.
  intros A B C L F. unfold weekMean. rewrite !zn_R. change (@accumulate R _ tb) with (vsum tb). change (@accumulate R _ tb') with (vsum tb'). rewrite !vsum_R. ops.
  assert (M : (if Reqb f 1 then Rsum tb / 5 else c) <= (if Reqb f 1 then Rsum tb' / 5 else c')) by (pose proof (sum_mono _ _ F); destruct (Reqb f 1); lra).
  assert (N : (if Reqb f 1 then nth 1 tb c else c) <= (if Reqb f 1 then nth 1 tb' c' else c')).
  { destruct (Reqb f 1); [|exact L]. destruct F as [|x y l l' _ [|x2 y2 l2 l2' X _]]; cbn [nth]; assumption. }
  set (m := if Reqb f 1 then Rsum tb / 5 else c) in *. set (m' := if Reqb f 1 then Rsum tb' / 5 else c') in *.
  set (n := if Reqb f 1 then nth 1 tb c else c) in *. set (n' := if Reqb f 1 then nth 1 tb' c' else c') in *. clearbody m m' n n'.
  assert (c * oc_wk_day oc <= c' * oc_wk_day oc) by (apply Rmult_le_compat_r; lra). assert (n * oc_wk_nt oc <= n' * oc_wk_nt oc) by (apply Rmult_le_compat_r; lra).
  assert (m * oc_wke_tot oc <= m' * oc_wke_tot oc) by (apply Rmult_le_compat_r; lra).
  apply Rmin_glb; [eapply Rle_trans; [apply Rmin_l|lra]|eapply Rle_trans; [apply Rmin_r|lra]].
Qed.
Lemma relief_mono z z' : (1 <= z <= z')%Z -> (z' <= 3)%Z -> 0 <= bem_relief z <= bem_relief z'.
Proof.
  intros H H'. assert (z = 1 \/ z = 2 \/ z = 3)%Z as [-> | [-> | ->]] by lia; assert (z' = 1 \/ z' = 2 \/ z' = 3)%Z as [-> | [-> | ->]] by lia; try lia; unfold bem_relief; cbn [Z.eqb Pos.eqb]; lra.
Qed.
Lemma sound_bem p x z : sound p -> ntrunc x = Some z -> sound (set_bem p x).
Proof. intros S Z. destruct S. constructor; try assumption. exists z. exact Z. Qed.
Lemma C32_bem_l p w m m' x x' z z' : sound p -> 1 <= week_days (pa_population p) -> ntrunc x = Some z -> ntrunc x' = Some z' -> (1 <= z <= z')%Z -> (z' <= 3)%Z ->
  monthlyAll (map_params Fin (set_bem p x)) (fin_weather w) = Ok m -> monthlyAll (map_params Fin (set_bem p x')) (fin_weather w) = Ok m' ->
  forall i t t', nth_error (te_h (mr_temps m)) i = Some (Fin t) -> nth_error (te_h (mr_temps m')) i = Some (Fin t') -> t' <= t.
Proof.
  intros S D X X' Z1 Z2 M M' i t t' T T'.
  apply monthlyAll_run in M. destruct (run_fin _ _ _ (sound_bem p x z S X) M) as (r & E & F). apply monthlyAll_run in M'. destruct (run_fin _ _ _ (sound_bem p x' z' S X') M') as (r' & E' & F').
  rewrite (fr_temps _ _ F) in T. rewrite (fr_temps _ _ F') in T'. cbn [fin_temps te_h] in T, T'.
  apply nth_map_fin in T. destruct T as (y & T & Y). injection Y as <-. apply nth_map_fin in T'. destruct T' as (y' & T' & Y'). injection Y' as <-.
  assert (Eoc : mr_occ r' = mr_occ r) by (rewrite (rn_oc _ _ _ E), (rn_oc _ _ _ E'); reflexivity).
  assert (Ebd : mr_bd r' = mr_bd r). { pose proof (rn_bd _ _ _ E') as B'. rewrite Eoc, (rn_bd _ _ _ E) in B'. apply ok_inj in B'. now symmetry. }
  assert (Elu : mr_lu r' = mr_lu r). { rewrite (rn_lu _ _ _ E), (rn_lu _ _ _ E'), Ebd. reflexivity. }
  assert (EH : mr_H_tr r' = mr_H_tr r) by (rewrite (rn_H _ _ _ E), (rn_H _ _ _ E'); reflexivity).
  assert (Es : mr_Esol r' = mr_Esol r).
  { destruct (rn_sol _ _ _ E) as (ws & W & ->). destruct (rn_sol _ _ _ E') as (ws' & W' & ->). cbn [set_bem pa_structure] in W, W'. rewrite W in W'. apply ok_inj in W'. now subst ws'. }
  assert (Eg : mr_gains r' = mr_gains r). { rewrite (rn_gains _ _ _ E), (rn_gains _ _ _ E'), Elu, Eoc. reflexivity. }
  pose proof (rn_temps _ _ _ E) as B. pose proof (rn_temps _ _ _ E') as B'. cbv zeta in B, B'. rewrite Eoc, Ebd, EH, Es, Eg in B'.
  unfold interiorTemp in B, B'. rewrite (relief (set_bem p x) z X) in B. rewrite (relief (set_bem p x') z' X') in B'. cbn [obind] in B, B'. apply ok_inj in B. apply ok_inj in B'.
  rewrite <- B in T. rewrite <- B' in T'. clear B B'. cbn [te_h] in T, T'. rewrite nth_error_map in T, T'. cbn [set_bem pa_heating pa_cooling pa_structure pa_ventilation] in T, T'.
  match type of T with option_map _ (nth_error ?l i) = _ => set (qs := l) in * end.
  match type of T' with option_map _ (nth_error ?l i) = _ => change l with qs in T' end.
  destruct (nth_error qs i) as [q|] eqn:Q; [|discriminate T]. cbn [option_map] in T, T'. injection T as <-. injection T' as <-.
  apply nth_error_In in Q. assert (Q' := Q). apply (zip5_in (periods (mr_occ r) _)) in Q'. destruct Q' as (xa & xb & xc & xd & xe & ->).
  rewrite (rn_oc _ _ _ E). cbn [set_bem pa_population]. pose proof (so_hours p S) as SH. pose proof (so_days p S) as SD.
  destruct (weights (pa_population p) SH (conj D (proj2 SD))) as (W1 & W2 & W3 & W4). pose proof (relief_mono z z' Z1 Z2) as RM.
  pose proof (sound_occ p S) as (O1 & O2 & _). cbv zeta in *.
  apply weekMean_mono; try assumption; [ops; lra|]. apply heating_mono; [| |ops; lra].
  - change (0 < timeConstant p (mr_H_tr r + ve_H_ve (pa_ventilation p))). rewrite cap_R. pose proof (so_cap p S). pose proof (so_loss p S). rewrite (rn_H _ _ _ E). cbn [set_bem pa_structure]. rewrite UA_R by apply S.
    unfold Rdiv. apply Rmult_lt_0_compat; [apply Rmult_lt_0_compat; [assumption|now apply Rinv_0_lt_compat]|lra].
  - intros q J. unfold periods in J. rewrite O1, O2 in J. repeat (destruct J as [<-|J]; [cbn [pe_t]; lra|]). destruct J.
Qed.
Lemma C32_bem_cooling_l p w m m' x x' z z' : sound p -> 1 <= week_days (pa_population p) -> ntrunc x = Some z -> ntrunc x' = Some z' -> (1 <= z <= z')%Z -> (z' <= 3)%Z ->
  cl_tempOcc (pa_cooling p) + bem_relief z' <= cl_tempUnocc (pa_cooling p) ->
  monthlyAll (map_params Fin (set_bem p x)) (fin_weather w) = Ok m -> monthlyAll (map_params Fin (set_bem p x')) (fin_weather w) = Ok m' ->
  forall i t t', nth_error (te_c (mr_temps m)) i = Some (Fin t) -> nth_error (te_c (mr_temps m')) i = Some (Fin t') -> t <= t'.
Proof.
  intros S D X X' Z1 Z2 C M M' i t t' T T'. pose proof (relief_mono z z' Z1 Z2) as RM.
  assert (C' : cl_tempOcc (pa_cooling p) + bem_relief z <= cl_tempUnocc (pa_cooling p)) by lra.
  pose proof (C58_l (set_bem p x) w m z (sound_bem p x z S X) D X M C' _ (nth_error_In _ _ T)) as A.
  pose proof (C58_l (set_bem p x') w m' z' (sound_bem p x' z' S X') D X' M' C _ (nth_error_In _ _ T')) as A'.
  injection A as ->. injection A' as ->. cbn [set_bem pa_cooling]. lra.
Qed.
