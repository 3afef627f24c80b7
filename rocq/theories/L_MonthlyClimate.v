(** Monthly needs under other set-points and outdoor temperatures. *)
From Coq Require Import Reals Lra Psatz ZArith List Bool Lia.
From Verif Require Import Base Num Xr M_Params M_Monthly M_Map L_Xr L_HourlyShape L_HourlyFin2 S_Calendar S_Schedule S_Results S_Monthly S_Physical S_MonthlySound S_MonthlyHeat S_MonthlyCompare S_MonthlyClimate
  L_Monthly L_Monthly2 L_Monthly3 L_Monthly4 L_Monthly5 L_MonthlyFin L_MonthlyFin2 L_MonthlyNaN L_MonthlyGain L_MonthlyNeed L_MonthlyTemp L_MonthlyVent L_Utilise L_MonthlyCompare.
Import ListNotations.
Open Scope R_scope.

(** *** Losses grow with the temperature difference *)
Lemma Rpow_mono x x' y : 0 <= x -> x <= x' -> 0 < y -> Rpow x y <= Rpow x' y.
Proof.
  intros X L Y. destruct (Req_EM_T x 0) as [->|N].
  - apply Rle_trans with 0; [|apply Rpow_nonneg; lra]. unfold Rpow. destruct (Rlt_dec 0 0); [lra|]. destruct (Req_EM_T y 0); [lra|]. destruct (Req_EM_T 0 0); lra.
  - rewrite !Rpow_R by lra. unfold Rpower. assert (y * ln x <= y * ln x') by (apply Rmult_le_compat_l; [lra|]; destruct (Req_EM_T x x') as [->|]; [lra|apply Rlt_le, ln_increasing; lra]).
    destruct (Req_EM_T (y * ln x) (y * ln x')) as [->|]; [lra|apply Rlt_le, exp_increasing; lra].
Qed.
Lemma height_nonneg p : sound p -> 0 <= stackHeight p.
Proof. intros S. unfold stackHeight. ops. apply Rmult_le_pos; [apply S|]. eapply Rle_trans; [|apply Rmax_l]. apply Rlt_le. now apply lit_pos. Qed.
Lemma stack_mono p te t te' t' : sound p -> vent_nonneg p -> Rabs (te - t) <= Rabs (te' - t') -> stackFlow p te t <= stackFlow p te' t'.
Proof.
  intros S V A. unfold stackFlow. ops. apply Rle_max_compat_r. apply Rmult_le_compat_r; [apply Rmult_le_pos; apply V|].
  pose proof (Rabs_pos (te - t)). pose proof (height_nonneg p S). apply Rpow_mono; [apply Rmult_le_pos; assumption|apply Rmult_le_compat_r; assumption|apply S].
Qed.
Lemma sdiv_mono (a a' b : R) : 0 <= b -> a <= a' -> sdiv a b <= sdiv a' b.
Proof.
  intros B A. unfold sdiv. rewrite zn_R. ops. destruct (Reqb_spec b 0) as [E|E]; [apply Rle_refl|]. apply Rmult_le_compat_r; [|exact A]. apply Rlt_le, Rinv_0_lt_compat. lra.
Qed.
Lemma coef_mono p wk v te t te' t' : sound p -> vent_nonneg p -> Rabs (te - t) <= Rabs (te' - t') -> ventilationCoefficient p wk te v t <= ventilationCoefficient p wk te' v t'.
Proof.
  intros S V A. rewrite !coef_R. pose proof (stack_mono p te t te' t' S V A) as ST. pose proof (wind_nonneg p v S V) as W. pose proof (vn_rho p V) as RH.
  apply Rmult_le_compat_r; [lra|]. apply Rmult_le_compat_r; [lra|]. apply Rplus_le_compat_r. unfold infiltration. ops. apply Rplus_le_compat_r. apply Rplus_le_compat; [apply Rle_max_compat_r; exact ST|].
  apply sdiv_mono; [apply V|]. apply Rmult_le_compat_r; [apply Rlt_le; now apply lit_pos|]. apply Rmult_le_compat_r; assumption.
Qed.
Lemma coef_nonneg p v te t : sound p -> vent_nonneg p -> 0 <= ventilationCoefficient p (oc_wk_day (scheduleAndOccupancy (pa_population p))) te v t.
Proof.
  intros S V. rewrite coef_R. pose proof (proj2 (infil_nonneg p te t S V) v). pose proof (mech_nonneg p S V). pose proof (vn_rho p V).
  unfold Rdiv. apply Rmult_le_pos; [apply Rmult_le_pos; lra|lra].
Qed.
Lemma loss_mono p v te t te' t' i : sound p -> vent_nonneg p -> 0 <= envelope_UA (pa_structure p) -> (i < 12)%nat -> t - te <= t' - te' ->
  let h := fun te t => ventilationCoefficient p (oc_wk_day (scheduleAndOccupancy (pa_population p))) te v t in
  let L := fun te t => month_loss (envelope_UA (pa_structure p)) (st_floorArea (pa_structure p)) (h te t) t te i in L te t <= L te' t'.
Proof.
  intros S V U I D h L. unfold L, month_loss. pose proof (mega_pos i I) as MS. pose proof (so_area p S) as AP. apply Rmult_le_compat_r; [lra|].
  pose proof (coef_nonneg p v te t S V) as H1. pose proof (coef_nonneg p v te' t' S V) as H2.
  pose proof (coef_mono p (oc_wk_day (scheduleAndOccupancy (pa_population p))) v te t te' t' S V) as M1. pose proof (coef_mono p (oc_wk_day (scheduleAndOccupancy (pa_population p))) v te' t' te t S V) as M2.
  unfold h. clear h L. revert H1 H2 M1 M2. generalize (ventilationCoefficient p (oc_wk_day (scheduleAndOccupancy (pa_population p))) te v t) (ventilationCoefficient p (oc_wk_day (scheduleAndOccupancy (pa_population p))) te' v t').
  intros h h' H1 H2 M1 M2. set (UA := envelope_UA _) in *. set (A := st_floorArea _) in *. clearbody UA A. clear S V p.
  assert (K1 : 0 <= A * h) by (apply Rmult_le_pos; lra). assert (K2 : 0 <= A * h') by (apply Rmult_le_pos; lra).
  destruct (Rle_lt_dec 0 (t - te)) as [P|N].
  - assert (h <= h') by (apply M1; rewrite !Rabs_left1 by lra; lra). assert (A * h <= A * h') by (apply Rmult_le_compat_l; lra). apply Rmult_le_compat; lra.
  - destruct (Rle_lt_dec 0 (t' - te')) as [P'|N'].
    + apply Rle_trans with 0; [|apply Rmult_le_pos; lra]. assert (0 <= (te - t) * (UA + A * h)) by (apply Rmult_le_pos; lra). lra.
    + assert (h' <= h) by (apply M2; rewrite !Rabs_pos_eq by lra; lra). assert (A * h' <= A * h) by (apply Rmult_le_compat_l; lra).
      assert ((te' - t') * (UA + A * h') <= (te - t) * (UA + A * h)) by (apply Rmult_le_compat; lra). lra.
Qed.

(** *** Two runs *)
Section Two.
Variables (p : params_t R) (ho hu co cu : R) (w w' : mweather R) (m m' : mresult xr) (i : nat) (z : Z).
Let q : params_t R := set_points p ho hu co cu.
Hypothesis (SP : sound p) (VN : vent_nonneg p) (UN : 0 <= envelope_UA (pa_structure p)) (BM : ntrunc (bu_bem (pa_building p)) = Some z) (I : (i < 12)%nat) (SW : same_sun_wind w w').
Hypothesis (M : monthlyAll (map_params Fin p) (fin_weather w) = Ok m) (M' : monthlyAll (map_params Fin q) (fin_weather w') = Ok m').
Lemma set_points_sound : sound q.
Proof. destruct SP. constructor; assumption. Qed.
Lemma same_gains t tc te hve hvc sol phi t' tc' te' hve' hvc' sol' phi' : month_data p w m i t tc te hve hvc sol phi -> month_data q w' m' i t' tc' te' hve' hvc' sol' phi' ->
  sol' = sol /\ phi' = phi /\ exists v, let h := fun te t => ventilationCoefficient p (oc_wk_day (scheduleAndOccupancy (pa_population p))) te v t in
    hve = h te t /\ hve' = h te' t' /\ hvc = h te tc /\ hvc' = h te' tc'.
Proof.
  intros D D'. destruct (data_run w i I p m _ _ _ _ _ _ _ SP M D) as (r & v & E & V & H1 & H2 & S1 & P1). destruct (data_run w' i I q m' _ _ _ _ _ _ _ set_points_sound M' D') as (r' & v' & E' & V' & H1' & H2' & S1' & P1').
  rewrite (sw_wind _ _ SW), V in V'. injection V' as <-.
  assert (SOL : mr_Esol r' = mr_Esol r).
  { destruct (rn_sol _ _ _ E) as (ws & W & ->). destruct (rn_sol _ _ _ E') as (ws' & W' & ->). change (windowSolarArea (pa_structure q)) with (windowSolarArea (pa_structure p)) in W'. rewrite W in W'. apply ok_inj in W'. subst ws'.
    unfold solarHeatGain. change (pa_structure q) with (pa_structure p). replace (irradiance w') with (irradiance w); [reflexivity|]. unfold irradiance. now rewrite (sw_solar _ _ SW), (sw_Egh _ _ SW). }
  split. { rewrite SOL, S1 in S1'. injection S1' as <-. reflexivity. }
  split. { rewrite P1, P1', (rn_gains _ _ _ E), (rn_gains _ _ _ E'), (rn_lu _ _ _ E), (rn_lu _ _ _ E'), (rn_oc _ _ _ E), (rn_oc _ _ _ E'). reflexivity. }
  exists v. cbv zeta. split; [exact H1|]. split; [rewrite H1'; reflexivity|]. split; [exact H2|rewrite H2'; reflexivity].
Qed.

Lemma climate_heating a b : no_heat_setback p z -> no_heat_setback q z -> ht_tempOcc (pa_heating p) <= ho -> no_warmer w w' i -> 0 < utilisation_exponent p ->
  (forall t tc te hve hvc sol phi, month_data p w m i t tc te hve hvc sol phi -> 0 < month_loss (envelope_UA (pa_structure p)) (st_floorArea (pa_structure p)) hve t te i /\ 0 <= month_gain phi sol i) ->
  nth_error (ne_ht (mr_needs m)) i = Some (Fin a) -> nth_error (ne_ht (mr_needs m')) i = Some (Fin b) -> a <= b.
Proof.
  intros NS NS' HO NW EP LG NA NB. pose proof set_points_sound as SQ.
  destruct (month_balance p w m i SP M I) as (t & tc & te & hve & hvc & sol & phi & D & N & _). cbv zeta in N.
  destruct (month_balance q w' m' i SQ M' I) as (t' & tc' & te' & hve' & hvc' & sol' & phi' & D' & N' & _). cbv zeta in N'.
  destruct (same_gains _ _ _ _ _ _ _ _ _ _ _ _ _ _ D D') as (ES & EF & v & EH & EH' & _).
  pose proof (heat_temp w i z p m t SP BM M NS (md_t _ _ _ _ _ _ _ _ _ _ _ D)) as T1.
  pose proof (heat_temp w' i z q m' t' SQ BM M' NS' (md_t _ _ _ _ _ _ _ _ _ _ _ D')) as T2. change (ht_tempOcc (pa_heating q)) with ho in T2.
  pose proof (NW te te' (md_te _ _ _ _ _ _ _ _ _ _ _ D) (md_te _ _ _ _ _ _ _ _ _ _ _ D')) as TE.
  destruct (LG _ _ _ _ _ _ _ D) as [LP GP]. rewrite ES, EF in N'.
  pose proof (loss_mono p v te t te' t' i SP VN UN I ltac:(lra)) as LM. cbv beta zeta in LM, EH, EH'. rewrite <- EH, <- EH' in LM.
  change (pa_structure q) with (pa_structure p) in N'. change (utilisation_exponent q) with (utilisation_exponent p) in N'.
  set (L := month_loss _ _ hve _ _ _) in *. set (L' := month_loss _ _ hve' _ _ _) in *.
  rewrite NA in N. injection N as N. rewrite NB in N'. injection N' as N'.
  destruct (heat_needed (utilisation_exponent p) L (month_gain phi sol i) a EP LP GP (eq_sym N)) as [-> N1].
  destruct (heat_needed (utilisation_exponent p) L' (month_gain phi sol i) b EP ltac:(lra) GP (eq_sym N')) as [-> N2].
  apply needed_mono; try assumption; apply Rle_refl.
Qed.
Lemma climate_cooling a b : no_cool_setback p z -> no_cool_setback q z -> cl_tempOcc (pa_cooling p) <= co -> no_warmer w w' i -> 0 < utilisation_exponent p ->
  (forall t tc te hve hvc sol phi, month_data p w m i t tc te hve hvc sol phi -> 0 < month_gain phi sol i) ->
  nth_error (ne_cl (mr_needs m)) i = Some (Fin a) -> nth_error (ne_cl (mr_needs m')) i = Some (Fin b) -> b <= a.
Proof.
  intros NS NS' HO NW EP LG NA NB. pose proof set_points_sound as SQ.
  destruct (month_balance p w m i SP M I) as (t & tc & te & hve & hvc & sol & phi & D & _ & N). cbv zeta in N.
  destruct (month_balance q w' m' i SQ M' I) as (t' & tc' & te' & hve' & hvc' & sol' & phi' & D' & _ & N'). cbv zeta in N'.
  destruct (same_gains _ _ _ _ _ _ _ _ _ _ _ _ _ _ D D') as (ES & EF & v & _ & _ & EH & EH').
  pose proof (cool_temp w i z p m tc SP BM M NS (md_tc _ _ _ _ _ _ _ _ _ _ _ D)) as T1.
  pose proof (cool_temp w' i z q m' tc' SQ BM M' NS' (md_tc _ _ _ _ _ _ _ _ _ _ _ D')) as T2. change (cl_tempOcc (pa_cooling q)) with co in T2.
  pose proof (NW te te' (md_te _ _ _ _ _ _ _ _ _ _ _ D) (md_te _ _ _ _ _ _ _ _ _ _ _ D')) as TE.
  pose proof (LG _ _ _ _ _ _ _ D) as GP. rewrite ES, EF in N'.
  pose proof (loss_mono p v te tc te' tc' i SP VN UN I ltac:(lra)) as LM. cbv beta zeta in LM, EH, EH'. rewrite <- EH, <- EH' in LM.
  change (pa_structure q) with (pa_structure p) in N'. change (utilisation_exponent q) with (utilisation_exponent p) in N'.
  set (K := month_loss _ _ hvc _ _ _) in *. set (K' := month_loss _ _ hvc' _ _ _) in *. set (G := month_gain phi sol i) in *. set (e := utilisation_exponent p) in *.
  rewrite NA in N. injection N as N. rewrite NB in N'. injection N' as N'.
  assert (UP : forall k c, 0 < k -> c = needed e G k -> k / (G + Rdblmin) <> 1 -> c <= G).
  { intros k c KP -> NE. pose proof Rdblmin_pos. unfold needed. destruct (Req_EM_T k 0); [lra|]. pose proof (uncovered_pos e (k / (G + Rdblmin)) EP ltac:(apply Rdiv_lt_0_compat; lra) NE) as [_ U].
    assert ((G + Rdblmin) * uncovered e (k / (G + Rdblmin)) <= (G + Rdblmin) * 1) by (apply Rmult_le_compat_l; lra). lra. }
  destruct (Rle_lt_dec K 0) as [KN|KP].
  - assert (E1 : Fin a = Fin (G - K)) by (rewrite <- (need_cl_in e K G KN GP); exact N). injection E1 as ->.
    destruct (Rle_lt_dec K' 0) as [KN'|KP'].
    + assert (E2 : Fin b = Fin (G - K')) by (rewrite <- (need_cl_in e K' G KN' GP); exact N'). injection E2 as ->. lra.
    + destruct (cool_needed e K' G b EP KP' GP (eq_sym N')) as [EB N2]. pose proof (UP K' b KP' EB N2). lra.
  - destruct (cool_needed e K G a EP KP GP (eq_sym N)) as [-> N1]. destruct (cool_needed e K' G b EP ltac:(lra) GP (eq_sym N')) as [-> N2].
    apply needed_mono; try assumption; lra.
Qed.
End Two.

Lemma C92_heating_l (p : params_t R) ho hu co cu w w' m m' i z a b : let q := set_points p ho hu co cu in
  sound p -> vent_nonneg p -> 0 <= envelope_UA (pa_structure p) -> ntrunc (bu_bem (pa_building p)) = Some z -> no_heat_setback p z -> no_heat_setback q z -> 0 < utilisation_exponent p ->
  monthlyAll (map_params Fin p) (fin_weather w) = Ok m -> monthlyAll (map_params Fin q) (fin_weather w') = Ok m' -> (i < 12)%nat ->
  same_sun_wind w w' -> no_warmer w w' i -> ht_tempOcc (pa_heating p) <= ho ->
  (forall t tc te hve hvc sol phi, month_data p w m i t tc te hve hvc sol phi -> 0 < month_loss (envelope_UA (pa_structure p)) (st_floorArea (pa_structure p)) hve t te i /\ 0 <= month_gain phi sol i) ->
  nth_error (ne_ht (mr_needs m)) i = Some (Fin a) -> nth_error (ne_ht (mr_needs m')) i = Some (Fin b) -> a <= b.
Proof.
  intros q S V U B NS NS' EP M M' I SW NW HO LG NA NB. exact (climate_heating p ho hu co cu w w' m m' i z S V U B I SW M M' a b NS NS' HO NW EP LG NA NB).
Qed.
Lemma C92_cooling_l (p : params_t R) ho hu co cu w w' m m' i z a b : let q := set_points p ho hu co cu in
  sound p -> vent_nonneg p -> 0 <= envelope_UA (pa_structure p) -> ntrunc (bu_bem (pa_building p)) = Some z -> no_cool_setback p z -> no_cool_setback q z -> 0 < utilisation_exponent p ->
  monthlyAll (map_params Fin p) (fin_weather w) = Ok m -> monthlyAll (map_params Fin q) (fin_weather w') = Ok m' -> (i < 12)%nat ->
  same_sun_wind w w' -> no_warmer w w' i -> cl_tempOcc (pa_cooling p) <= co ->
  (forall t tc te hve hvc sol phi, month_data p w m i t tc te hve hvc sol phi -> 0 < month_gain phi sol i) ->
  nth_error (ne_cl (mr_needs m)) i = Some (Fin a) -> nth_error (ne_cl (mr_needs m')) i = Some (Fin b) -> b <= a.
Proof.
  intros q S V U B NS NS' EP M M' I SW NW HO LG NA NB. exact (climate_cooling p ho hu co cu w w' m m' i z S V U B I SW M M' a b NS NS' HO NW EP LG NA NB).
Qed.
