(** Monthly needs of a building and of a draughtier one. *)
From Coq Require Import Reals Lra Psatz ZArith List Bool Lia.
From Verif Require Import Base Num Xr M_Params M_Monthly M_Map L_Xr L_HourlyShape L_HourlyFin2 S_Calendar S_Schedule S_Results S_Monthly S_Physical S_MonthlySound S_MonthlyHeat S_MonthlyAir
  L_Monthly L_Monthly2 L_Monthly3 L_Monthly4 L_Monthly5 L_MonthlyFin L_MonthlyFin2 L_MonthlyNaN L_MonthlyGain L_MonthlyNeed L_MonthlyTemp L_MonthlyVent L_Utilise L_MonthlyCompare L_MonthlyClimate.
Import ListNotations.
Open Scope R_scope.

Lemma air_sound p n e : sound p -> sound (with_air p n e).
Proof. intros S. destruct S. constructor; assumption. Qed.
Lemma air_vent p n e : vent_nonneg p -> draughtier p n e -> vent_nonneg (with_air p n e).
Proof.
  intros V [D1 D2]. pose proof (vn_inf p V). pose proof (vn_hre p V). destruct V. constructor; try assumption.
  - cbn [with_air pa_structure st_infiltrationRate]. lra.
  - cbn [with_air pa_ventilation ve_heatRecoveryEfficiency]. lra.
Qed.

(** *** Air flows *)
Lemma air_stack p n e a b : sound p -> vent_nonneg p -> st_infiltrationRate (pa_structure p) <= n -> stackFlow p a b <= stackFlow (with_air p n e) a b.
Proof.
  intros S V D. pose proof (height_nonneg p S) as H. unfold stackFlow. change (stackHeight (with_air p n e)) with (stackHeight p).
  cbn [with_air pa_structure pa_ventilation st_infiltrationRate ve_stack_exp ve_stack_coeff]. ops.
  apply Rle_max_compat_r. pose proof (vn_stack p V) as SC. apply Rmult_le_compat_l; [apply Rpow_nonneg, Rmult_le_pos; [apply Rabs_pos|exact H]|].
  apply Rmult_le_compat_l; assumption.
Qed.
(** Wind per unit of leakage. *)
Definition wind_share (p : params_t R) (v : R) : R := Rpow (v * v * (ve_dCp (pa_ventilation p) * pa_terrain p)) (ve_wind_exp (pa_ventilation p)) * ve_wind_coeff (pa_ventilation p).
Lemma wind_share_nonneg p v : sound p -> vent_nonneg p -> 0 <= wind_share p v.
Proof. intros S V. unfold wind_share. apply Rmult_le_pos; [|apply V]. apply Rpow_nonneg. apply Rmult_le_pos; [apply Rle_0_sqr|apply S]. Qed.
Lemma wind_is p v : windFlow p v = wind_share p v * st_infiltrationRate (pa_structure p).
Proof. unfold windFlow, wind_share. ops. ring. Qed.
Lemma infil_is p s v : 0 < st_infiltrationRate (pa_structure p) ->
  infiltration p s (windFlow p v) = Rmax s (wind_share p v * st_infiltrationRate (pa_structure p)) + s * wind_share p v * (14 / 100) + Rmax 0 (- flowDifference p).
Proof.
  intros Q. unfold infiltration. rewrite wind_is, zn_R, sdiv_R by lra. ops. cbn [lit R_num]. unfold Rlit. f_equal. f_equal. field. lra.
Qed.
Lemma air_coef p n e wk te v t : sound p -> vent_nonneg p -> draughtier p n e -> 0 < st_infiltrationRate (pa_structure p) -> wk = oc_wk_day (scheduleAndOccupancy (pa_population p)) ->
  ventilationCoefficient p wk te v t <= ventilationCoefficient (with_air p n e) wk te v t.
Proof.
  intros S V [D1 D2] Q ->. rewrite !coef_R. change (pa_phys (with_air p n e)) with (pa_phys p). pose proof (vn_rho p V) as RH.
  apply Rmult_le_compat_r; [lra|]. apply Rmult_le_compat_r; [lra|]. apply Rplus_le_compat.
  - rewrite !infil_is by (cbn [with_air pa_structure st_infiltrationRate]; lra). change (wind_share (with_air p n e) v) with (wind_share p v). change (flowDifference (with_air p n e)) with (flowDifference p).
    pose proof (air_stack p n e te t S V D1) as ST. pose proof (stack_nonneg p te t) as SP. pose proof (wind_share_nonneg p v S V) as WS. change (st_infiltrationRate (pa_structure (with_air p n e))) with n.
    apply Rplus_le_compat_r. apply Rplus_le_compat.
    + apply Rmax_lub; [eapply Rle_trans; [exact ST|apply Rmax_l]|eapply Rle_trans; [|apply Rmax_r]; apply Rmult_le_compat_l; assumption].
    + apply Rmult_le_compat_r; [lra|]. apply Rmult_le_compat_r; assumption.
  - pose proof (sound_occ p S) as (_ & _ & _ & W). cbv zeta in W. set (wk := oc_wk_day _) in *. unfold mechanicalFlow.
    change (ve_type (pa_ventilation (with_air p n e))) with (ve_type (pa_ventilation p)). change (ventFraction (with_air p n e) wk) with (ventFraction p wk). change (supplyPerArea (with_air p n e)) with (supplyPerArea p).
    change (ve_exhaustAirRecirculated (pa_ventilation (with_air p n e))) with (ve_exhaustAirRecirculated (pa_ventilation p)). change (ve_heatRecoveryEfficiency (pa_ventilation (with_air p n e))) with e.
    destruct (neqb _ _); [apply Rle_refl|]. ops. rewrite !zn_R. apply Rmult_le_compat_l; [|lra].
    apply Rmult_le_pos; [apply Rmult_le_pos|pose proof (vn_rec p V); lra]; [|now apply supply_nonneg].
    clearbody wk. unfold ventFraction. rewrite !zn_R. ops. pose proof (so_dens1 p S). pose proof (so_dens2 p S).
    assert (0 <= wk + (1 - wk) * po_densityOcc (pa_population p) / po_densityUnocc (pa_population p)).
    { apply Rplus_le_le_0_compat; [lra|]. apply Rmult_le_pos; [apply Rmult_le_pos; lra|]. apply Rlt_le. now apply Rinv_0_lt_compat. }
    destruct (ve_vent_rate_flag (pa_ventilation p)) as [|[]|]; lra.
Qed.

(** *** Two runs *)
Section Two.
Variables (p : params_t R) (n e : R) (w : mweather R) (m m' : mresult xr) (i : nat).
Let q : params_t R := with_air p n e.
Hypothesis (SP : sound p) (I : (i < 12)%nat).
Hypothesis (M : monthlyAll (map_params Fin p) (fin_weather w) = Ok m) (M' : monthlyAll (map_params Fin q) (fin_weather w) = Ok m').
Lemma same_but_air t tc te hve hvc sol phi t' tc' te' hve' hvc' sol' phi' : month_data p w m i t tc te hve hvc sol phi -> month_data q w m' i t' tc' te' hve' hvc' sol' phi' ->
  t' = t /\ tc' = tc /\ te' = te /\ sol' = sol /\ phi' = phi /\ exists v, let wk := oc_wk_day (scheduleAndOccupancy (pa_population p)) in
    hve = ventilationCoefficient p wk te v t /\ hve' = ventilationCoefficient q wk te v t /\ hvc = ventilationCoefficient p wk te v tc /\ hvc' = ventilationCoefficient q wk te v tc.
Proof.
  intros D D'. pose proof (air_sound p n e SP) as SQ. fold q in SQ.
  destruct (data_run w i I p m _ _ _ _ _ _ _ SP M D) as (r0 & v & E0 & V & H1 & H2 & S1 & P1). destruct (data_run w i I q m' _ _ _ _ _ _ _ SQ M' D') as (r0' & v' & E0' & V' & H1' & H2' & S1' & P1').
  rewrite V in V'. injection V' as <-.
  assert (TE : te' = te) by (pose proof (md_te _ _ _ _ _ _ _ _ _ _ _ D) as A; rewrite (md_te _ _ _ _ _ _ _ _ _ _ _ D') in A; injection A as ->; reflexivity).
  pose proof M as R. pose proof M' as R'. apply monthlyAll_run in R. destruct (run_fin _ _ _ SP R) as (r & E & F). apply monthlyAll_run in R'. destruct (run_fin _ _ _ SQ R') as (r' & E' & F').
  assert (Eoc : mr_occ r' = mr_occ r) by (rewrite (rn_oc _ _ _ E), (rn_oc _ _ _ E'); reflexivity).
  assert (Ebd : mr_bd r' = mr_bd r). { pose proof (rn_bd _ _ _ E') as B'. rewrite Eoc, (rn_bd _ _ _ E) in B'. apply ok_inj in B'. now symmetry. }
  assert (Elu : mr_lu r' = mr_lu r). { rewrite (rn_lu _ _ _ E), (rn_lu _ _ _ E'), Ebd. reflexivity. }
  assert (EH : mr_H_tr r' = mr_H_tr r) by (rewrite (rn_H _ _ _ E), (rn_H _ _ _ E'); reflexivity).
  assert (Es : mr_Esol r' = mr_Esol r).
  { destruct (rn_sol _ _ _ E) as (ws & W & ->). destruct (rn_sol _ _ _ E') as (ws' & W' & ->). change (windowSolarArea (pa_structure q)) with (windowSolarArea (pa_structure p)) in W'. rewrite W in W'. apply ok_inj in W'. now subst ws'. }
  assert (Eg : mr_gains r' = mr_gains r). { rewrite (rn_gains _ _ _ E), (rn_gains _ _ _ E'), Elu, Eoc. reflexivity. }
  assert (Et : mr_temps r' = mr_temps r).
  { pose proof (rn_temps _ _ _ E) as B. pose proof (rn_temps _ _ _ E') as B'. cbv zeta in B, B'. rewrite Eoc, Ebd, EH, Es, Eg in B'.
    change (interiorTemp q) with (interiorTemp p) in B'. change (internalHeatGain (pa_structure q)) with (internalHeatGain (pa_structure p)) in B'. 
    match type of B with ?x = _ => match type of B' with ?y = _ => assert (EQ : y = x) by reflexivity end end. rewrite EQ, B in B'. apply ok_inj in B'. now symmetry. }
  assert (T1 : t' = t). { pose proof (md_t _ _ _ _ _ _ _ _ _ _ _ D) as A. pose proof (md_t _ _ _ _ _ _ _ _ _ _ _ D') as A'. rewrite (fr_temps _ _ F) in A. rewrite (fr_temps _ _ F'), Et, A in A'. injection A' as ->. reflexivity. }
  assert (T2 : tc' = tc). { pose proof (md_tc _ _ _ _ _ _ _ _ _ _ _ D) as A. pose proof (md_tc _ _ _ _ _ _ _ _ _ _ _ D') as A'. rewrite (fr_temps _ _ F) in A. rewrite (fr_temps _ _ F'), Et, A in A'. injection A' as ->. reflexivity. }
  split; [exact T1|]. split; [exact T2|]. split; [exact TE|].
  split. { pose proof (md_sol _ _ _ _ _ _ _ _ _ _ _ D) as A. pose proof (md_sol _ _ _ _ _ _ _ _ _ _ _ D') as A'. rewrite (fr_sol _ _ F) in A. rewrite (fr_sol _ _ F'), Es, A in A'. injection A' as ->. reflexivity. }
  split. { pose proof (md_phi _ _ _ _ _ _ _ _ _ _ _ D) as A. pose proof (md_phi _ _ _ _ _ _ _ _ _ _ _ D') as A'. rewrite (fr_gains _ _ F) in A. rewrite (fr_gains _ _ F'), Eg in A'.
    change (internalHeatGain (pa_structure (map_params Fin q))) with (@internalHeatGain xr _ (pa_structure (map_params Fin p))) in A'. rewrite A in A'. injection A' as ->. reflexivity. }
  exists v. cbv zeta. split; [exact H1|]. split; [rewrite H1', T1, TE; reflexivity|]. split; [exact H2|rewrite H2', T2, TE; reflexivity].
Qed.
End Two.

Lemma loss_air p h h' t te i : sound p -> 0 <= envelope_UA (pa_structure p) -> 0 <= h -> h <= h' -> (i < 12)%nat ->
  let L := fun h => month_loss (envelope_UA (pa_structure p)) (st_floorArea (pa_structure p)) h t te i in 0 < L h -> L h <= L h'.
Proof.
  intros S U H HH I L LP. unfold L, month_loss in *. pose proof (mega_pos i I) as MS. pose proof (so_area p S) as AP. set (UA := envelope_UA _) in *. set (A := st_floorArea _) in *. set (s := month_megaseconds i) in *. clearbody UA A s. clear S p I.
  assert (K1 : 0 <= A * h) by (apply Rmult_le_pos; lra). assert (A * h <= A * h') by (apply Rmult_le_compat_l; lra).
  assert (T : 0 <= t - te). { destruct (Rle_lt_dec 0 (t - te)) as [|N]; [assumption|]. exfalso. assert (0 <= (te - t) * (UA + A * h)) by (apply Rmult_le_pos; lra).
    assert (0 <= (te - t) * (UA + A * h) * s) by (apply Rmult_le_pos; lra). lra. }
  apply Rmult_le_compat_r; [lra|]. apply Rmult_le_compat_l; lra.
Qed.

Lemma C113_heating_l (p : params_t R) n e w m m' i a b : let q := with_air p n e in
  sound p -> vent_nonneg p -> 0 <= envelope_UA (pa_structure p) -> 0 < utilisation_exponent p -> 0 < st_infiltrationRate (pa_structure p) -> draughtier p n e ->
  monthlyAll (map_params Fin p) (fin_weather w) = Ok m -> monthlyAll (map_params Fin q) (fin_weather w) = Ok m' -> (i < 12)%nat ->
  (forall t tc te hve hvc sol phi, month_data p w m i t tc te hve hvc sol phi -> 0 < month_loss (envelope_UA (pa_structure p)) (st_floorArea (pa_structure p)) hve t te i /\ 0 <= month_gain phi sol i) ->
  nth_error (ne_ht (mr_needs m)) i = Some (Fin a) -> nth_error (ne_ht (mr_needs m')) i = Some (Fin b) -> a <= b.
Proof.
  intros q SP VN UN EP Q DR M M' I LG NA NB. pose proof (air_sound p n e SP) as SQ. fold q in SQ.
  destruct (month_balance p w m i SP M I) as (t & tc & te & hve & hvc & sol & phi & D & N & _). cbv zeta in N.
  destruct (month_balance q w m' i SQ M' I) as (t' & tc' & te' & hve' & hvc' & sol' & phi' & D' & N' & _). cbv zeta in N'.
  destruct (same_but_air p n e w m m' i SP I M M' _ _ _ _ _ _ _ _ _ _ _ _ _ _ D D') as (ET & _ & EE & ES & EF & v & H1 & H1' & _). cbv zeta in H1, H1'.
  destruct (LG _ _ _ _ _ _ _ D) as [LP GP]. rewrite ES, EF, ET, EE in N'.
  pose proof (air_coef p n e _ te v t SP VN DR Q eq_refl) as HH. fold q in H1', HH. rewrite <- H1, <- H1' in HH.
  pose proof (coef_nonneg p v te t SP VN) as H0. rewrite <- H1 in H0.
  pose proof (loss_air p hve hve' t te i SP UN H0 HH I LP) as LM. cbv beta in LM.
  change (envelope_UA (pa_structure q)) with (envelope_UA (pa_structure p)) in N'. change (st_floorArea (pa_structure q)) with (st_floorArea (pa_structure p)) in N'. change (utilisation_exponent q) with (utilisation_exponent p) in N'.
  set (L := month_loss _ _ hve _ _ _) in *. set (L' := month_loss _ _ hve' _ _ _) in *.
  rewrite NA in N. injection N as N. rewrite NB in N'. injection N' as N'.
  destruct (heat_needed (utilisation_exponent p) L (month_gain phi sol i) a EP LP GP (eq_sym N)) as [-> N1].
  destruct (heat_needed (utilisation_exponent p) L' (month_gain phi sol i) b EP ltac:(lra) GP (eq_sym N')) as [-> N2].
  apply needed_mono; try assumption; apply Rle_refl.
Qed.
Lemma C113_cooling_l (p : params_t R) n e w m m' i a b : let q := with_air p n e in
  sound p -> vent_nonneg p -> 0 <= envelope_UA (pa_structure p) -> 0 < utilisation_exponent p -> 0 < st_infiltrationRate (pa_structure p) -> draughtier p n e ->
  monthlyAll (map_params Fin p) (fin_weather w) = Ok m -> monthlyAll (map_params Fin q) (fin_weather w) = Ok m' -> (i < 12)%nat ->
  (forall t tc te hve hvc sol phi, month_data p w m i t tc te hve hvc sol phi -> 0 < month_loss (envelope_UA (pa_structure p)) (st_floorArea (pa_structure p)) hvc tc te i /\ 0 < month_gain phi sol i) ->
  nth_error (ne_cl (mr_needs m)) i = Some (Fin a) -> nth_error (ne_cl (mr_needs m')) i = Some (Fin b) -> b <= a.
Proof.
  intros q SP VN UN EP Q DR M M' I LG NA NB. pose proof (air_sound p n e SP) as SQ. fold q in SQ.
  destruct (month_balance p w m i SP M I) as (t & tc & te & hve & hvc & sol & phi & D & _ & N). cbv zeta in N.
  destruct (month_balance q w m' i SQ M' I) as (t' & tc' & te' & hve' & hvc' & sol' & phi' & D' & _ & N'). cbv zeta in N'.
  destruct (same_but_air p n e w m m' i SP I M M' _ _ _ _ _ _ _ _ _ _ _ _ _ _ D D') as (_ & ET & EE & ES & EF & v & _ & _ & H1 & H1'). cbv zeta in H1, H1'.
  destruct (LG _ _ _ _ _ _ _ D) as [LP GP]. rewrite ES, EF, ET, EE in N'.
  pose proof (air_coef p n e _ te v tc SP VN DR Q eq_refl) as HH. fold q in H1', HH. rewrite <- H1, <- H1' in HH.
  pose proof (coef_nonneg p v te tc SP VN) as H0. rewrite <- H1 in H0.
  pose proof (loss_air p hvc hvc' tc te i SP UN H0 HH I LP) as LM. cbv beta in LM.
  change (envelope_UA (pa_structure q)) with (envelope_UA (pa_structure p)) in N'. change (st_floorArea (pa_structure q)) with (st_floorArea (pa_structure p)) in N'. change (utilisation_exponent q) with (utilisation_exponent p) in N'.
  set (K := month_loss _ _ hvc _ _ _) in *. set (K' := month_loss _ _ hvc' _ _ _) in *.
  rewrite NA in N. injection N as N. rewrite NB in N'. injection N' as N'.
  destruct (cool_needed (utilisation_exponent p) K (month_gain phi sol i) a EP LP GP (eq_sym N)) as [-> N1].
  destruct (cool_needed (utilisation_exponent p) K' (month_gain phi sol i) b EP ltac:(lra) GP (eq_sym N')) as [-> N2].
  apply needed_mono; try assumption; lra.
Qed.
