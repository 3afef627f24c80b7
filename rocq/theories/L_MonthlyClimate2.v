(** A house with higher set-points in a colder year. *)
From Coq Require Import Reals Lra Psatz ZArith List Bool Lia.
From Verif Require Import Base Num Xr M_Params M_Monthly M_Map L_Xr L_HourlyShape L_HourlyFin2 L_Office S_Calendar S_Schedule S_Results S_Monthly S_Physical S_MonthlySound S_MonthlyHeat S_MonthlyPlant S_MonthlyCompare S_MonthlyClimate
  L_Monthly L_Monthly2 L_Monthly3 L_Monthly4 L_Monthly5 L_MonthlyFin L_MonthlyFin2 L_MonthlyNaN L_MonthlyGain L_MonthlyNeed L_MonthlyTemp L_MonthlyVent L_MonthlyCase L_MonthlyPlant L_MonthlyPlant2
  E_SmallOffice E_Monthly E_House L_MonthlyHouse L_MonthlyHouse2 L_MonthlyCompare L_MonthlyCompare2 L_MonthlyClimate.
Import ListNotations.
Open Scope R_scope.

Lemma C92_case_l : let p := house 2 0 0 0 in let q := set_points p 25 25 29 29 in let w := steadyYear 14 in let w' := steadyYear 12 in
  sound p /\ vent_nonneg p /\ 0 <= envelope_UA (pa_structure p) /\ ntrunc (bu_bem (pa_building p)) = Some 1%Z /\ no_heat_setback p 1 /\ no_heat_setback q 1 /\ no_cool_setback p 1 /\ no_cool_setback q 1 /\
  0 < utilisation_exponent p /\ same_sun_wind w w' /\ ht_tempOcc (pa_heating p) <= 25 /\ cl_tempOcc (pa_cooling p) <= 29 /\
  exists m m', monthlyAll (map_params Fin p) (fin_weather w) = Ok m /\ monthlyAll (map_params Fin q) (fin_weather w') = Ok m' /\
  forall i, (i < 12)%nat -> no_warmer w w' i /\
  (forall t tc te hve hvc sol phi, month_data p w m i t tc te hve hvc sol phi -> 0 < month_loss (envelope_UA (pa_structure p)) (st_floorArea (pa_structure p)) hve t te i /\ 0 < month_gain phi sol i) /\
  exists a b ac bc, nth_error (ne_ht (mr_needs m)) i = Some (Fin a) /\ nth_error (ne_ht (mr_needs m')) i = Some (Fin b) /\
    nth_error (ne_cl (mr_needs m)) i = Some (Fin ac) /\ nth_error (ne_cl (mr_needs m')) i = Some (Fin bc).
Proof.
  cbv zeta. set (p := house 2 0 0 0). set (q := set_points p 25 25 29 29).
  assert (UA : envelope_UA (pa_structure p) = 90) by (change (pa_structure p) with (houseStructure (0 : R)); apply house_UA).
  assert (NH : no_heat_setback q 1). { right. split; [apply (house_days 2 0)|]. change (25 - bem_relief 1 <= 25). unfold bem_relief. cbn [Z.eqb Pos.eqb]. lra. }
  assert (NC : no_cool_setback q 1). { right. split; [apply (house_days 2 0)|]. change (29 + bem_relief 1 <= 29). unfold bem_relief. cbn [Z.eqb Pos.eqb]. lra. }
  assert (SW : same_sun_wind (steadyYear 14) (steadyYear 12)) by (constructor; reflexivity).
  split; [apply house_sound|]. split; [apply house_vent|]. split; [lra|]. split; [apply house_bem|]. split; [apply house_no_setback|]. split; [exact NH|]. split; [apply house_no_setback|]. split; [exact NC|].
  split; [apply house_exponent|]. split; [exact SW|]. split; [change (ht_tempOcc _) with (@zn R _ 24); rewrite zn_R; lra|]. split; [change (cl_tempOcc _) with (@zn R _ 28); rewrite zn_R; lra|].
  destruct (house_run 2 0 0 0 14) as (m & rows & M & _). destruct (house_run 2 0 0 0 12) as (m0 & rows' & M0 & _). fold p in M, M0.
  assert (M1 : exists m', monthlyAll (map_params Fin q) (fin_weather (steadyYear 12)) = Ok m') by (apply monthlyAll_iff; exact (proj1 (monthlyAll_iff _ _) (ex_intro _ _ M0))).
  destruct M1 as (m' & M'). exists m, m'. split; [exact M|]. split; [exact M'|]. clear m0 rows rows' M0.
  intros i I. pose proof (house_months 2 0 0 0 14 m i ltac:(apply Rabs_le; lra) ltac:(apply Rabs_le; lra) M I) as (D & N1 & N2). cbv zeta in *.
  pose proof (ms_bounds i I) as B. pose proof (house_air_bound 0 0 0 0 14 24 ltac:(apply Rabs_le; lra)) as A1. pose proof (house_air_bound 0 0 0 0 14 28 ltac:(apply Rabs_le; lra)) as A2.
  pose proof dblmin_small as DS. pose proof Rdblmin_pos as DP.
  split. { intros te te' H H'. change (mw_mdbt (steadyYear 14)) with (repeat 14 12) in H. change (mw_mdbt (steadyYear 12)) with (repeat 12 12) in H'. apply nth_error_In, repeat_spec in H. apply nth_error_In, repeat_spec in H'. lra. }
  split. { intros t tc te hve hvc sol phi H. destruct (data_unique _ _ _ _ _ _ _ _ _ _ _ _ _ _ _ _ _ _ D H) as (-> & -> & -> & -> & ->). split.
    - rewrite UA. change (st_floorArea (pa_structure p)) with (@zn R _ 100). rewrite zn_R. unfold month_loss. apply Rmult_lt_0_compat; [apply Rmult_lt_0_compat|]; lra.
    - unfold month_gain. lra. }
  destruct (month_balance q (steadyYear 12) m' i (set_points_sound p 25 25 29 29 (house_sound 2 0 0 0)) M' I) as (t' & tc' & te' & hve' & hvc' & sol' & phi' & D' & N1' & N2'). cbv zeta in N1', N2'.
  destruct (same_gains p 25 25 29 29 _ _ m m' i (house_sound 2 0 0 0) I SW M M' _ _ _ _ _ _ _ _ _ _ _ _ _ _ D D') as (ES & EF & v & EH & EH' & EC & EC'). cbv beta zeta in EH, EH', EC, EC'.
  pose proof (heat_temp _ i 1 q m' t' (set_points_sound p 25 25 29 29 (house_sound 2 0 0 0)) (house_bem 2 0) M' NH (md_t _ _ _ _ _ _ _ _ _ _ _ D')) as T1. change (ht_tempOcc (pa_heating q)) with 25 in T1.
  pose proof (cool_temp _ i 1 q m' tc' (set_points_sound p 25 25 29 29 (house_sound 2 0 0 0)) (house_bem 2 0) M' NC (md_tc _ _ _ _ _ _ _ _ _ _ _ D')) as T2. change (cl_tempOcc (pa_cooling q)) with 29 in T2.
  assert (TE : te' = 12). { pose proof (md_te _ _ _ _ _ _ _ _ _ _ _ D') as Q. change (mw_mdbt (steadyYear 12)) with (repeat 12 12) in Q. apply nth_error_In, repeat_spec in Q. exact Q. }
  unfold bem_relief in T1, T2. cbn [Z.eqb Pos.eqb] in T1, T2.
  pose proof (loss_mono p v 14 24 te' t' i (house_sound 2 0 0 0) (house_vent 2 0 0 0) ltac:(lra) I ltac:(lra)) as LM. cbv beta zeta in LM. rewrite <- EH, <- EH' in LM.
  pose proof (loss_mono p v 14 28 te' tc' i (house_sound 2 0 0 0) (house_vent 2 0 0 0) ltac:(lra) I ltac:(lra)) as KM. cbv beta zeta in KM. rewrite <- EC, <- EC' in KM.
  change (pa_structure q) with (pa_structure p) in N1', N2'. change (utilisation_exponent q) with (utilisation_exponent p) in N1', N2'. change (st_floorArea (pa_structure p)) with (@zn R _ 100) in *. rewrite zn_R, UA in *. fold p in N1, N2.
  assert (HL : month_loss 90 100 (airFlow 14 24) 24 14 i = hLoss 14 24 * month_megaseconds i) by reflexivity. assert (HK : month_loss 90 100 (airFlow 14 28) 28 14 i = hLoss 14 28 * month_megaseconds i) by reflexivity.
  rewrite HL in LM. rewrite HK in KM. clear HL HK.
  assert (HL : 900 * month_megaseconds i <= hLoss 14 24 * month_megaseconds i) by (unfold hLoss; apply Rmult_le_compat_r; lra).
  assert (HK : 900 * month_megaseconds i <= hLoss 14 28 * month_megaseconds i) by (unfold hLoss; apply Rmult_le_compat_r; lra).
  assert (HG : hGain 2 0 * month_megaseconds i = 200 * month_megaseconds i) by (unfold hGain; lra). assert (HG' : month_gain phi' sol' i = 200 * month_megaseconds i) by (rewrite ES, EF; unfold month_gain; lra).
  rewrite HG in N1, N2. rewrite HG' in N1', N2'. assert (EP : 0 < utilisation_exponent p) by apply house_exponent. clear D D' EH EH' EC EC' M M' HG HG'.
  set (L := hLoss 14 24 * _) in *. set (K := hLoss 14 28 * _) in *. set (L' := month_loss _ _ hve' _ _ _) in *. set (K' := month_loss _ _ hvc' _ _ _) in *. set (s := month_megaseconds i) in *. set (e := utilisation_exponent p) in *. clearbody L K L' K' s e.
  rewrite (proj1 (need_at_pos e L (200 * s) EP ltac:(lra) ltac:(lra) ltac:(lra))) in N1.
  rewrite (proj1 (need_at_pos e L' (200 * s) EP ltac:(lra) ltac:(lra) ltac:(lra))) in N1'.
  rewrite (proj2 (need_at_pos e (200 * s) K EP ltac:(lra) ltac:(lra) ltac:(lra))) in N2.
  rewrite (proj2 (need_at_pos e (200 * s) K' EP ltac:(lra) ltac:(lra) ltac:(lra))) in N2'.
  do 4 eexists. split; [exact N1|]. split; [exact N1'|]. split; [exact N2|exact N2'].
Qed.
