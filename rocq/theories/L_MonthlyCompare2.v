(** A house and the same house with fewer appliances. *)
From Coq Require Import Reals Lra Psatz ZArith List Bool Lia.
From Verif Require Import Base Num Xr M_Params M_Monthly M_Map L_Xr L_HourlyShape L_HourlyFin2 L_Office S_Calendar S_Schedule S_Results S_Monthly S_Physical S_MonthlySound S_MonthlyHeat S_MonthlyPlant S_MonthlyCompare
  L_Monthly L_Monthly2 L_Monthly3 L_Monthly4 L_Monthly5 L_MonthlyFin L_MonthlyFin2 L_MonthlyNaN L_MonthlyGain L_MonthlyNeed L_MonthlyTemp L_MonthlyVent L_MonthlyCase L_MonthlyPlant L_MonthlyPlant2
  E_SmallOffice E_Monthly E_House L_MonthlyHouse L_MonthlyHouse2 L_MonthlyCompare.
Import ListNotations.
Open Scope R_scope.

Lemma varied_house x e x' : varied (house x e 0 0) x' x' (st_windowU (pa_structure (house x e 0 0))) (st_interiorHeatCapacity (pa_structure (house x e 0 0))) = house x' e 0 0.
Proof. reflexivity. Qed.
Lemma house_bem x e : ntrunc (bu_bem (pa_building (house x e 0 0))) = Some 1%Z.
Proof. change (bu_bem _) with (@zn R _ 1). rewrite zn_R. apply (trunc_Z 1). lia. Qed.
Lemma house_days x e : 1 <= week_days (pa_population (house x e 0 0)).
Proof. change (pa_population _) with (mkPopulation (@zn R _ 17) (zn 8) (zn 5) (zn 1) (zn 25) (zn 150) (zn 0)). rewrite (proj2 house_week). lra. Qed.
Lemma house_no_setback x e : no_heat_setback (house x e 0 0) 1 /\ no_cool_setback (house x e 0 0) 1.
Proof.
  split; right; (split; [apply house_days|]).
  - change (ht_tempOcc _) with (@zn R _ 24). change (ht_tempUnocc _) with (@zn R _ 24). rewrite zn_R. unfold bem_relief. cbn [Z.eqb Pos.eqb]. lra.
  - change (cl_tempOcc _) with (@zn R _ 28). change (cl_tempUnocc _) with (@zn R _ 28). rewrite zn_R. unfold bem_relief. cbn [Z.eqb Pos.eqb]. lra.
Qed.
Lemma house_tau x e : 0 < ht_tau_H0 (pa_heating (house x e 0 0)).
Proof. change (ht_tau_H0 _) with (@zn R _ 15). rewrite zn_R. lra. Qed.
Lemma house_windows x e : all_nonneg (st_windowArea (pa_structure (house x e 0 0))).
Proof. intros v I. change (st_windowArea _) with (repeat (@zn R _ 0) 9) in I. apply repeat_spec in I. subst v. rewrite zn_R. lra. Qed.
Lemma rle_refl_list (l : list R) : Forall2 Rle l l.
Proof. induction l; constructor; [apply Rle_refl|assumption]. Qed.
Lemma house_leaner x e x' : x' <= x -> leaner (house x e 0 0) x' x' (st_windowU (pa_structure (house x e 0 0))) (st_interiorHeatCapacity (pa_structure (house x e 0 0))).
Proof. intros X. constructor; [exact X|exact X|apply rle_refl_list|apply Rle_refl]. Qed.

Lemma data_unique p w m i t tc te hve hvc sol phi t' tc' te' hve' hvc' sol' phi' : month_data p w m i t tc te hve hvc sol phi -> month_data p w m i t' tc' te' hve' hvc' sol' phi' ->
  t' = t /\ te' = te /\ hve' = hve /\ sol' = sol /\ phi' = phi.
Proof. intros [A1 A2 A3 A4 A5 A6 A7] [B1 B2 B3 B4 B5 B6 B7]. repeat split; congruence. Qed.

Lemma C91_case_l : let p := house 2 0 0 0 in let us := st_windowU (pa_structure p) in let c := st_interiorHeatCapacity (pa_structure p) in let q := varied p 1 1 us c in let w := steadyYear 14 in
  sound p /\ sound q /\ ntrunc (bu_bem (pa_building p)) = Some 1%Z /\ no_heat_setback p 1 /\ no_cool_setback p 1 /\ leaner p 1 1 us c /\ all_nonneg (st_windowArea (pa_structure p)) /\
  0 < ht_tau_H0 (pa_heating p) /\ 0 < utilisation_exponent p /\ 0 < utilisation_exponent q /\
  exists m m', monthlyAll (map_params Fin p) (fin_weather w) = Ok m /\ monthlyAll (map_params Fin q) (fin_weather w) = Ok m' /\
  forall i, (i < 12)%nat ->
  (forall te, nth_error (mw_mdbt w) i = Some te -> te < ht_tempOcc (pa_heating p) - bem_relief 1) /\
  (forall t tc te hve hvc sol phi, month_data p w m i t tc te hve hvc sol phi -> 0 < month_loss (envelope_UA (pa_structure p)) (st_floorArea (pa_structure p)) hve t te i) /\
  (forall t tc te hve hvc sol phi, month_data q w m' i t tc te hve hvc sol phi -> 0 < month_gain phi sol i) /\
  exists a b ac bc, nth_error (ne_ht (mr_needs m)) i = Some (Fin a) /\ nth_error (ne_ht (mr_needs m')) i = Some (Fin b) /\
    nth_error (ne_cl (mr_needs m)) i = Some (Fin ac) /\ nth_error (ne_cl (mr_needs m')) i = Some (Fin bc).
Proof.
  cbv zeta. rewrite varied_house.
  split; [apply house_sound|]. split; [apply house_sound|]. split; [apply house_bem|]. split; [apply house_no_setback|]. split; [apply house_no_setback|]. split; [apply house_leaner; lra|].
  split; [apply house_windows|]. split; [apply house_tau|]. split; [apply house_exponent|]. split; [apply house_exponent|].
  destruct (house_run 2 0 0 0 14) as (m & rows & M & _). destruct (house_run 1 0 0 0 14) as (m' & rows' & M' & _). exists m, m'. split; [exact M|]. split; [exact M'|].
  intros i I. pose proof (house_months 2 0 0 0 14 m i ltac:(apply Rabs_le; lra) ltac:(apply Rabs_le; lra) M I) as (D & N1 & N2).
  pose proof (house_months 1 0 0 0 14 m' i ltac:(apply Rabs_le; lra) ltac:(apply Rabs_le; lra) M' I) as (D' & N1' & N2'). cbv zeta in *.
  pose proof (ms_bounds i I) as B. pose proof (house_air_bound 0 0 0 0 14 24 ltac:(apply Rabs_le; lra)) as A1. pose proof (house_air_bound 0 0 0 0 14 28 ltac:(apply Rabs_le; lra)) as A2.
  pose proof dblmin_small as DS. pose proof Rdblmin_pos as DP.
  split. { intros te H. change (mw_mdbt (steadyYear 14)) with (repeat 14 12) in H. apply nth_error_In, repeat_spec in H. subst te. change (ht_tempOcc _) with (@zn R _ 24). rewrite zn_R. unfold bem_relief. cbn [Z.eqb Pos.eqb]. lra. }
  split. { intros t tc te hve hvc sol phi H. destruct (data_unique _ _ _ _ _ _ _ _ _ _ _ _ _ _ _ _ _ _ D H) as (-> & -> & -> & -> & ->).
    change (pa_structure (house 2 0 0 0)) with (houseStructure (0 : R)). rewrite house_UA. unfold houseStructure. cbn [st_floorArea]. rewrite zn_R. unfold month_loss. apply Rmult_lt_0_compat; [apply Rmult_lt_0_compat|]; lra. }
  split. { intros t tc te hve hvc sol phi H. destruct (data_unique _ _ _ _ _ _ _ _ _ _ _ _ _ _ _ _ _ _ D' H) as (-> & -> & -> & -> & ->). unfold month_gain. lra. }
  assert (HL : 900 * month_megaseconds i <= hLoss 14 24 * month_megaseconds i) by (unfold hLoss; apply Rmult_le_compat_r; lra).
  assert (HK : 900 * month_megaseconds i <= hLoss 14 28 * month_megaseconds i) by (unfold hLoss; apply Rmult_le_compat_r; lra).
  assert (HG : hGain 2 0 * month_megaseconds i = 200 * month_megaseconds i) by (unfold hGain; lra). assert (HG' : hGain 1 0 * month_megaseconds i = 100 * month_megaseconds i) by (unfold hGain; lra).
  rewrite HG in N1, N2. rewrite HG' in N1', N2'.
  set (L := hLoss 14 24 * _) in *. set (K := hLoss 14 28 * _) in *. set (s := month_megaseconds i) in *. clearbody L K s.
  rewrite (proj1 (need_at_pos (utilisation_exponent (house 2 0 0 0)) L (200 * s) ltac:(apply house_exponent) ltac:(lra) ltac:(lra) ltac:(lra))) in N1.
  rewrite (proj1 (need_at_pos (utilisation_exponent (house 1 0 0 0)) L (100 * s) ltac:(apply house_exponent) ltac:(lra) ltac:(lra) ltac:(lra))) in N1'.
  rewrite (proj2 (need_at_pos (utilisation_exponent (house 2 0 0 0)) (200 * s) K ltac:(apply house_exponent) ltac:(lra) ltac:(lra) ltac:(lra))) in N2.
  rewrite (proj2 (need_at_pos (utilisation_exponent (house 1 0 0 0)) (100 * s) K ltac:(apply house_exponent) ltac:(lra) ltac:(lra) ltac:(lra))) in N2'.
  do 4 eexists. split; [exact N1|]. split; [exact N1'|]. split; [exact N2|exact N2'].
Qed.

(** Without the condition on the gains: the house loses heat to the sky.  With appliances it needs heating, without them none. *)
Lemma C91_refuted_l : exists p x us c w m m', let q := varied p x x us c in sound p /\ sound q /\ ntrunc (bu_bem (pa_building p)) = Some 1%Z /\ no_heat_setback p 1 /\ leaner p x x us c /\ 0 < utilisation_exponent q /\
  monthlyAll (map_params Fin p) (fin_weather w) = Ok m /\ monthlyAll (map_params Fin q) (fin_weather w) = Ok m' /\
  forall i, (i < 12)%nat -> exists a b, nth_error (ne_ht (mr_needs m)) i = Some (Fin a) /\ nth_error (ne_ht (mr_needs m')) i = Some (Fin b) /\ b < 0 /\ 1000 < a.
Proof.
  set (e := 1 / 2). destruct (house_run 1 e 0 0 14) as (m & rows & M & _). destruct (house_run 0 e 0 0 14) as (m' & rows' & M' & _).
  exists (house 1 e 0 0), 0, (st_windowU (pa_structure (house 1 e 0 0))), (st_interiorHeatCapacity (pa_structure (house 1 e 0 0))), (steadyYear 14), m, m'. rewrite varied_house. cbv zeta.
  split; [apply house_sound|]. split; [apply house_sound|]. split; [apply house_bem|]. split; [apply house_no_setback|]. split; [apply house_leaner; lra|]. split; [apply house_exponent|]. split; [exact M|]. split; [exact M'|].
  intros i I. pose proof (house_months 1 e 0 0 14 m i ltac:(apply Rabs_le; lra) ltac:(apply Rabs_le; lra) M I) as (_ & N & _).
  pose proof (house_months 0 e 0 0 14 m' i ltac:(apply Rabs_le; lra) ltac:(apply Rabs_le; lra) M' I) as (_ & N' & _). cbv zeta in *.
  pose proof (ms_bounds i I) as B. pose proof (house_air_bound 0 0 0 0 14 24 ltac:(apply Rabs_le; lra)) as A1. pose proof dblmin_small as DS. pose proof Rdblmin_pos as DP.
  assert (HL : 900 * month_megaseconds i <= hLoss 14 24 * month_megaseconds i <= 1900 * month_megaseconds i) by (unfold hLoss; split; apply Rmult_le_compat_r; lra).
  assert (HG : hGain 1 e * month_megaseconds i = 45 * month_megaseconds i) by (unfold hGain, e; lra). assert (HG' : hGain 0 e * month_megaseconds i = - (55) * month_megaseconds i) by (unfold hGain, e; lra).
  rewrite HG in N. rewrite HG' in N'. set (L := hLoss 14 24 * _) in *. set (s := month_megaseconds i) in *. clearbody L s.
  destruct (balance_pos (utilisation_exponent (house 1 e 0 0)) L (45 * s) ltac:(apply house_exponent) ltac:(lra) ltac:(lra) ltac:(lra)) as (_ & LOW & _). cbv zeta in LOW.
  rewrite (proj1 (need_at_pos (utilisation_exponent (house 1 e 0 0)) L (45 * s) ltac:(apply house_exponent) ltac:(lra) ltac:(lra) ltac:(lra))) in N.
  assert (Rdblmin * (L + Rdblmin) <= 1 / 1000000 * 5701) by (apply Rmult_le_compat; lra).
  destruct (need_neg (utilisation_exponent (house 0 e 0 0)) L (- (55) * s) ltac:(lra) ltac:(lra) ltac:(lra)) as (r & E & R0). rewrite E in N'.
  do 2 eexists. split; [exact N|]. split; [exact N'|]. split; [exact R0|]. pose proof (Rmax_r 0 (L - 45 * s)). lra.
Qed.
