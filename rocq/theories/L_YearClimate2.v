(** Cases for C94 and C95, and a leaky building that needs more heating after a warmer hour. *)
From Coq Require Import Reals Lra Psatz ZArith List Lia.
From Verif Require Import Base Num Xr M_Params M_Hourly M_Map S_RC S_Physical S_Network S_Year S_HourSpec S_Balance S_Compare S_YearCompare S_YearClimate S_MonthlyClimate E_SmallOffice S_Edit
  L_Xr L_HourlyR L_HourlySpec L_HourlyFin2 L_HourlyShape L_HourlyRun L_HourlyThm L_HourlyThm2 L_HourlyThm4 L_Office L_Office2 L_HourlyBalance2 L_Compare L_Compare2 L_Compare3 L_MonthlyClimate
  L_YearCompare L_YearCompare3 L_YearCompare4 L_YearClimate.
Import ListNotations.
Open Scope R_scope.

(** 14 m/s and 16 degrees, always dark. *)
Definition mild_hour {T} {N : Num T} : weather T := {| we_wind := zn 14; we_temp := zn 16; we_sol := repeat (zn 0) 9 |}.
Definition mild_year {T} {N : Num T} : list (weather T) := repeat mild_hour (Z.to_nat 8760).
Lemma mild_leak t : 18 <= t <= 22 -> sp_stack still_office 16 t <= sp_wind still_office 14.
Proof.
  intros B. apply Rle_trans with (sp_stack still_office 15 t); [|exact (windy_leak t B)].
  unfold sp_stack. assert (L : 0 < sp_leak still_office) by (unfold sp_leak; pose proof (Rmax_l (1 / 1000000) (0.19 * ve_n50 (pa_ventilation still_office) * st_buildingHeight (pa_structure still_office))); lra).
  apply Rmult_le_compat_l; [lra|]. pose proof (Rmax_l (1 / 10) (ve_hzone (pa_ventilation still_office))) as Z. set (z := Rmax (1 / 10) (ve_hzone (pa_ventilation still_office))) in *. clearbody z.
  assert (D : 0 <= Rmax (1 / 100000) (Rabs (16 - t)) <= Rmax (1 / 100000) (Rabs (15 - t))).
  { split; [pose proof (Rmax_l (1 / 100000) (Rabs (16 - t))); lra|]. rewrite !Rabs_left1 by lra. apply Rle_max_compat_l. lra. }
  apply Rpow_mono; [apply Rmult_le_pos; lra|apply Rmult_le_compat_l; lra|lra].
Qed.
Lemma mild_same : warmer_hour windy_hour mild_hour /\ same_leak still_office 18 22 windy_hour mild_hour.
Proof.
  split; [split; [reflexivity|split; [reflexivity|onum; lra]]|].
  intros flow t t' _ B B'. unfold sp_exfiltration. rewrite balanced, Rabs_R0, !Rmult_0_l, !Rminus_0_r.
  replace (we_wind windy_hour) with 14 by (onum; lra). replace (we_temp windy_hour) with 15 by (onum; lra).
  replace (we_wind mild_hour) with 14 by (onum; lra). replace (we_temp mild_hour) with 16 by (onum; lra).
  rewrite (Rmax_right _ _ (windy_leak t B)), (Rmax_right _ _ (mild_leak t' B')). reflexivity.
Qed.
Lemma Forall2_repeat {A B} (P : A -> B -> Prop) a b n : P a b -> Forall2 P (repeat a n) (repeat b n).
Proof. intros H. induction n; cbn; constructor; assumption. Qed.
Lemma still_recovery : recovery_ok still_office.
Proof. unfold recovery_ok. onum. lra. Qed.
Lemma mild_runs : exists raw r, simulateRaw (map_params Fin still_office) (map (map_weather Fin) mild_year) no_ratios = Ok (raw, r).
Proof.
  unfold mild_year. rewrite map_repeat. apply simulateRaw_ok.
  - apply office_ints.
  - reflexivity.
  - rewrite repeat_length. lia.
  - intros w Hw. apply repeat_spec in Hw. subst w. reflexivity.
Qed.
Lemma C94_case_l : let p := still_office in
  physical p /\ ordered_setpoints p /\ mass_slow p /\ recovery_ok p /\ timetable_of p office_hours /\ encloses 18 22 p /\
  Forall2 (fun w w' => warmer_hour w w' /\ same_leak p 18 22 w w') windy_year mild_year /\
  (exists raw r, simulateRaw (map_params Fin p) (map (map_weather Fin) windy_year) no_ratios = Ok (raw, r)) /\
  exists raw r, simulateRaw (map_params Fin p) (map (map_weather Fin) mild_year) no_ratios = Ok (raw, r).
Proof.
  cbv zeta. split; [exact still_physical|]. split; [exact still_ordered|]. split; [exact office_slow|]. split; [exact still_recovery|]. split; [exact still_timetable|].
  split; [unfold encloses; onum; lra|]. split; [apply Forall2_repeat; exact mild_same|]. split; [exact (windy_runs 0 0)|exact mild_runs].
Qed.
Lemma C95_case_l : let p := still_office in let q := set_points p 20 19 22 22 in
  physical p /\ ordered_setpoints p /\ ordered_setpoints q /\ mass_slow p /\ timetable_of p office_hours /\
  ht_tempOcc (pa_heating p) <= 20 /\ ht_tempUnocc (pa_heating p) <= 19 /\ cl_tempOcc (pa_cooling p) <= 22 /\ cl_tempUnocc (pa_cooling p) <= 22 /\
  encloses 18 22 p /\ encloses 18 22 q /\ (forall w, In w windy_year -> steady_leak p 18 22 w) /\
  (exists raw r, simulateRaw (map_params Fin p) (map (map_weather Fin) windy_year) no_ratios = Ok (raw, r)) /\
  exists raw r, simulateRaw (map_params Fin q) (map (map_weather Fin) windy_year) no_ratios = Ok (raw, r).
Proof.
  cbv zeta. split; [exact still_physical|]. split; [exact still_ordered|]. split; [unfold ordered_setpoints; onum; lra|]. split; [exact office_slow|]. split; [exact still_timetable|].
  split; [onum; lra|]. split; [onum; lra|]. split; [onum; lra|]. split; [onum; lra|]. split; [unfold encloses; onum; lra|]. split; [unfold encloses; onum; lra|].
  split; [intros w Hw; apply repeat_spec in Hw; subst w; exact windy_steady|]. split; [exact (windy_runs 0 0)|].
  unfold windy_year. rewrite map_repeat. apply simulateRaw_ok.
  - apply office_ints.
  - reflexivity.
  - rewrite repeat_length. lia.
  - intros w Hw. apply repeat_spec in Hw. subst w. reflexivity.
Qed.

(** ** A warm first hour in the leaky building *)
Definition warm_hour {T} {N : Num T} : weather T := {| we_wind := zn 0; we_temp := zn 30; we_sol := repeat (zn 0) 9 |}.
Definition warm_start {T} {N : Num T} : list (weather T) := warm_hour :: repeat calm_hour (Z.to_nat 8759).
Lemma warm_values : we_wind (@warm_hour R _) = 0 /\ we_temp (@warm_hour R _) = 30 /\ Forall (eq 0) (we_sol (@warm_hour R _)).
Proof. split; [onum; lra|]. split; [onum; lra|]. apply Forall_forall. intros v V. apply repeat_spec in V. subst v. onum. lra. Qed.
Definition leaky0 : params_t R := set_appliances leaky 0 0.
Lemma warm_flow : sp_envelope leaky0 0 0 30 20 = 0.0146 * sp_leak leaky * Rpow 0.5 0.667 /\ sp_supply leaky0 0 = 0.
Proof.
  assert (V : sp_vent leaky0 0 = 0) by (unfold sp_vent; lra). assert (S : sp_supply leaky0 0 = 0) by (unfold sp_supply; rewrite V; ring). split; [|exact S].
  assert (U : sp_unbalance leaky0 0 = 0) by (unfold sp_unbalance; rewrite V, S; ring).
  assert (W : sp_wind leaky0 0 = 0) by (unfold sp_wind; rewrite !Rmult_0_r, Rpow_zero by lra; ring).
  assert (K : sp_stack leaky0 30 20 = 0.0146 * sp_leak leaky * Rpow 0.5 0.667).
  { unfold sp_stack. change (sp_leak leaky0) with (sp_leak leaky). replace (Rmax (1 / 100000) (Rabs (30 - 20))) with 10 by (rewrite Rabs_right by lra; rewrite Rmax_right; lra).
    replace (Rmax (1 / 10) (ve_hzone (pa_ventilation leaky0))) with (1 / 10) by (onum; rewrite Rmax_left; lra). do 2 f_equal. lra. }
  assert (P : 0 < sp_stack leaky0 30 20) by (rewrite K; apply Rmult_lt_0_compat; [pose proof leak_pos; lra|apply Rpow_pos; lra]).
  unfold sp_envelope, sp_exfiltration. rewrite U, W, Rabs_R0, Rmult_0_l, Rminus_0_r. rewrite (Rmax_left (sp_stack leaky0 30 20) 0) by lra.
  rewrite (Rmax_left 0 0) by lra. rewrite Rmax_right by lra. rewrite K. ring.
Qed.
Lemma warm_rc : let x := rc_at leaky0 one_hour 0 warm_hour 20 in rc_positive x /\ slow_net x /\ rc_out x = 30 /\ rc_sup x = 30 /\ rc_phi_st x = 0 /\ rc_phi_m x = 0 /\ rc_phi_ia x = 0 /\
  rc_is x = sp_is leaky /\ rc_ve x = lc * Rpow 0.5 0.667.
Proof.
  cbv zeta. destruct warm_values as (C1 & C2 & C3). destruct warm_flow as (F1 & F2). pose proof (no_flow 0 0) as NF. pose proof (no_lights 0 0) as NL. fold leaky0 in NF, NL.
  split; [exact (rc_at_positive leaky0 one_hour 0 warm_hour 20 (physical_appliances leaky 0 0 leaky_physical))|].
  split; [exact leaky_slow|]. unfold rc_at. rewrite NF, NL, C1, C2.
  unfold hour_rc. cbn [rc_out rc_sup rc_phi_st rc_phi_m rc_phi_ia rc_is rc_ve].
  rewrite (dark_solar leaky0 _ C3). unfold sp_internal, sp_mixed, sp_total. rewrite F1, F2. change (equip_at leaky0 one_hour 0) with 0.
  assert (FP : 0 < 0.0146 * sp_leak leaky * Rpow 0.5 0.667) by (apply Rmult_lt_0_compat; [pose proof leak_pos; lra|apply Rpow_pos; lra]).
  split; [reflexivity|]. split; [revert FP; generalize (0.0146 * sp_leak leaky * Rpow 0.5 0.667); intros; field; lra|]. split; [ring|]. split; [ring|]. split; [ring|]. split; [reflexivity|]. unfold lc. ring.
Qed.
Lemma Rpow_half : 0.5 <= Rpow 0.5 0.667.
Proof.
  unfold Rpow. destruct (Rlt_dec 0 0.5); [|lra]. unfold Rpower.
  assert (N : ln 0.5 < 0) by (rewrite <- ln_1; apply ln_increasing; lra).
  apply Rle_trans with (exp (ln 0.5)); [rewrite exp_ln; lra|]. left. apply exp_increasing. lra.
Qed.
Lemma Rpow_fourteen : 1.15 <= Rpow 1.4 0.667.
Proof.
  unfold Rpow. destruct (Rlt_dec 0 1.4); [|lra]. unfold Rpower.
  assert (L : 2 / 7 <= ln 1.4).
  { assert (E : ln (/ 1.4) = - ln 1.4) by (apply ln_Rinv; lra). assert (K : ln (/ 1.4) <= / 1.4 - 1).
    { pose proof (exp_ineq1_le (ln (/ 1.4))) as X. rewrite exp_ln in X by (apply Rinv_0_lt_compat; lra). lra. }
    rewrite E in K. lra. }
  pose proof (exp_ineq1_le (0.667 * ln 1.4)). lra.
Qed.
Lemma lc_larger : 20 * sp_is leaky < lc /\ 0 < sp_is leaky.
Proof.
  assert (S : sp_is leaky <= 20 /\ 0 < sp_is leaky) by (unfold sp_is, sp_h_ms; onum; lra).
  split; [|apply S]. unfold lc, sp_leak. pose proof (Rmax_r (1 / 1000000) (0.19 * ve_n50 (pa_ventilation leaky) * st_buildingHeight (pa_structure leaky))) as K.
  assert (N : 100000 <= 0.19 * ve_n50 (pa_ventilation leaky) * st_buildingHeight (pa_structure leaky)) by (onum; lra). lra.
Qed.
(** The warm hour leaves air and mass between 20 and 30 degrees, the air above 28. *)
Lemma warm_step m a qh qc : iso_step (rc_at leaky0 one_hour 0 warm_hour 20) 0 30 20 m a qh qc -> 28 <= a <= 30 /\ 0 <= m <= 30.
Proof.
  destruct warm_rc as (X & SL & O & S0 & G1 & G2 & G3 & I & V). set (x := rc_at leaky0 one_hour 0 warm_hour 20) in *. clearbody x.
  intros ((f & (u & v & F) & T) & (s & B) & _). pose proof X as (X1 & X2 & X3 & X4 & X5 & X6).
  destruct lc_larger as [LC LI].
  assert (VE : 10 * rc_is x <= rc_ve x). { rewrite V, I. assert (lc * 0.5 <= lc * Rpow 0.5 0.667) by (apply Rmult_le_compat_l; [lra|exact Rpow_half]). lra. }
  assert (Z : forall q m0 m s a, rc_balance x q m0 m s a -> - (rc_ve x * (a - 20)) + rc_is x * ((s - 20) - (a - 20)) + (10 * rc_ve x + q) = 0 /\
    rc_is x * ((a - 20) - (s - 20)) - rc_w x * (s - 20) + rc_ms x * (((m0 - 20) + (m - 20)) / 2 - (s - 20)) + 10 * rc_w x = 0 /\
    rc_C x / 3.6 * ((m - 20) - (m0 - 20)) = rc_ms x * ((s - 20) - ((m0 - 20) + (m - 20)) / 2) - rc_em x * (((m0 - 20) + (m - 20)) / 2) + 10 * rc_em x).
  { intros q m0 m1 s1 a1 (A1 & A2 & A3). cbv zeta in *. rewrite S0, G3 in A1. rewrite O, G1 in A2. rewrite O, G2 in A3. repeat split; lra. }
  destruct (Z _ _ _ _ _ F) as (E1 & E2 & E3).
  assert (F0 : 0 <= f - 20) by (apply (warm_free _ _ _ _ _ _ (f - 20) (v - 20) (20 - 20) (u - 20) (10 * rc_ve x) (10 * rc_w x) (10 * rc_em x) X1 X2 X3 X4 X5 SL); lra).
  assert (F1 : 0 <= 30 - f) by (apply (warm_free _ _ _ _ _ _ (30 - f) (30 - v) (30 - 20) (30 - u) 0 0 0 X1 X2 X3 X4 X5 SL); lra).
  destruct (warm_mass _ _ _ _ _ X2 X3 X4 X5 SL (f - 20) (v - 20) (20 - 20) (u - 20) (10 * rc_w x) (10 * rc_em x)) as [L1 L2]; try lra.
  assert (0 <= rc_is x * (v - 20)) by (apply Rmult_le_pos; lra).
  assert (F2 : 28 <= f). { destruct (Rle_lt_dec 28 f) as [|N]; [assumption|exfalso]. assert (rc_ve x * (f - 20) <= rc_ve x * 8) by (apply Rmult_le_compat_l; lra). assert (rc_is x * (f - 20) <= rc_is x * 8) by (apply Rmult_le_compat_l; lra). lra. }
  assert (A : a = f) by (rewrite T; unfold clamp; rewrite Rmin_right by lra; rewrite Rmax_right; lra). rewrite A in *. split; [lra|].
  destruct (Z _ _ _ _ _ B) as (D1 & D2 & D3).
  destruct (warm_mass _ _ _ _ _ X2 X3 X4 X5 SL (f - 20) (s - 20) (20 - 20) (m - 20) (10 * rc_w x) (10 * rc_em x)) as [M1 M2]; try lra.
  destruct (warm_mass _ _ _ _ _ X2 X3 X4 X5 SL (30 - f) (30 - s) (30 - 20) (30 - m) 0 0) as [M3 M4]; try lra.
Qed.
Lemma warm_runs : exists raw r, simulateRaw (map_params Fin leaky0) (map (map_weather Fin) warm_start) no_ratios = Ok (raw, r).
Proof.
  unfold warm_start. cbn [map]. rewrite map_repeat. apply simulateRaw_ok.
  - unfold ints_ok. change (pa_population (map_params Fin leaky0)) with (@mkPopulation xr (zn 0) (zn 0) (zn 0) (zn 0) (zn 1) (zn 1) (zn 1)).
    cbn [po_daysStart po_daysEnd po_hoursStart po_hoursEnd].
    rewrite !ntrunc_zn by (unfold int_max; lia). repeat split; discriminate.
  - reflexivity.
  - cbn [length]. rewrite repeat_length. lia.
  - intros w [<-|Hw]; [reflexivity|]. apply repeat_spec in Hw. subst w. reflexivity.
Qed.
Lemma warm_hours raw r : simulateRaw (map_params Fin leaky0) (map (map_weather Fin) warm_start) no_ratios = Ok (raw, r) ->
  exists h m0 a0 qh0 qc0 m1 a1 qh qc, nth_error raw 1 = Some h /\ hr_Qneed_ht h = Fin qh /\
  iso_step (rc_at leaky0 one_hour 0 warm_hour 20) 0 30 20 m0 a0 qh0 qc0 /\ iso_step (rc_at leaky0 one_hour 1 calm_hour a0) 20 30 m0 m1 a1 qh qc.
Proof.
  intros H. destruct (C04_year_l leaky0 one_hour warm_start raw r (physical_appliances leaky 0 0 leaky_physical) leaky_ordered leaky_timetable H) as (ns & N & E).
  pose proof (simulateRaw_length _ _ _ _ _ H) as L. clear H.
  destruct raw as [|h0 [|h raw]]; [discriminate L|discriminate L|]. clear L.
  destruct ns as [|n0 [|n ns]]; [discriminate E|discriminate E|]. cbn [map] in E. injection E as _ _ E1 _ _.
  unfold warm_start in N. change (Z.to_nat 8759) with (S (Z.to_nat 8758)) in N. cbn [repeat] in N.
  inversion N as [|k tm ta w ws m0 a0 qh0 qc0 needs S0 R0]; subst. inversion R0 as [|k tm ta w ws m1 a1 qh qc needs S1 R1]; subst.
  change (heat_at leaky0 one_hour 0) with (@zn R _ 0) in S0. change (cool_at leaky0 one_hour 0) with (@zn R _ 30) in S0.
  change (0 + 1)%Z with 1%Z in S1.
  change (heat_at leaky0 one_hour 1) with (@zn R _ 20) in S1. change (cool_at leaky0 one_hour 1) with (@zn R _ 30) in S1.
  replace (@zn R _ 0) with 0 in S0 by (num; lra). replace (@zn R _ 30) with 30 in S0, S1 by (num; lra). replace (@zn R _ 20) with 20 in S1 by (num; lra).
  exists h, m0, a0, qh0, qc0, m1, a1, qh, qc. split; [reflexivity|]. split; [exact E1|]. split; [exact S0|exact S1].
Qed.
Lemma C94_refuted_l : exists p tt ws ws' raw raw' r r' k h h' q q',
  physical p /\ ordered_setpoints p /\ mass_slow p /\ recovery_ok p /\ timetable_of p tt /\ Forall2 warmer_hour ws ws' /\
  simulateRaw (map_params Fin p) (map (map_weather Fin) ws) no_ratios = Ok (raw, r) /\
  simulateRaw (map_params Fin p) (map (map_weather Fin) ws') no_ratios = Ok (raw', r') /\
  nth_error raw k = Some h /\ nth_error raw' k = Some h' /\ hr_Qneed_ht h = Fin q /\ hr_Qneed_ht h' = Fin q' /\ q < q'.
Proof.
  destruct lc_larger as [LC LI].
  destruct (leaky_runs 0 0) as (raw & r & H). destruct warm_runs as (raw' & r' & H').
  destruct (leaky_hours 0 raw r H) as (h & m0 & a0 & qh0 & qc0 & m1 & a1 & qh & qc & N & Q & S0 & S1).
  destruct (warm_hours raw' r' H') as (h' & m0' & a0' & qh0' & qc0' & m1' & a1' & qh' & qc' & N' & Q' & S0' & S1').
  exists leaky0, one_hour, calm_year, warm_start, raw, raw', r, r', 1%nat, h, h', qh, qh'.
  split; [exact (physical_appliances leaky 0 0 leaky_physical)|]. split; [exact leaky_ordered|]. split; [exact leaky_slow|]. split; [unfold recovery_ok; onum; lra|]. split; [exact leaky_timetable|].
  split.
  { unfold calm_year, warm_start. change (Z.to_nat 8760) with (S (Z.to_nat 8759)). cbn [repeat]. constructor; [split; [reflexivity|split; [reflexivity|onum; lra]]|].
    apply Forall2_repeat. split; [reflexivity|split; [reflexivity|apply Rle_refl]]. }
  split; [exact H|]. split; [exact H'|]. split; [exact N|]. split; [exact N'|]. split; [exact Q|]. split; [exact Q'|].
  clear H H' N N' Q Q'.
  destruct (leaky_rc 0 20 0) as (X1 & X2 & X3 & X4 & X5 & X6 & X7 & X8 & X9).
  assert (B0 : 0 <= a0 <= 20 /\ 0 <= m0 <= 20) by (apply (idle_step _ X1 X2 X3 X4 X5 X6 0 30 20 m0 a0 qh0 qc0 20); try lra; [exact X7|exact S0]).
  destruct (warm_step _ _ _ _ S0') as [A0' M0']. destruct B0 as [A0 M0].
  destruct (leaky_rc 0 a0 1) as (U1 & U2 & U3 & U4 & U5 & U6 & U7 & U8 & U9). destruct (leaky_rc 0 a0' 1) as (V1 & V2 & V3 & V4 & V5 & V6 & V7 & V8 & V9).
  assert (P1 : rc_ve (rc_at (set_appliances leaky 0 0) one_hour 1 calm_hour a0) <= lc).
  { rewrite U9. assert (K : Rpow (0.05 * Rmax (1 / 100000) (Rabs a0)) 0.667 <= 1).
    { apply Rle_trans with (Rpow 1 0.667); [|rewrite Rpow_one; lra]. apply Rpow_mono; [pose proof (Rmax_l (1 / 100000) (Rabs a0)); lra| |lra].
      assert (Rmax (1 / 100000) (Rabs a0) <= 20) by (apply Rmax_lub; [lra|rewrite Rabs_right; lra]). lra. }
    assert (lc * Rpow (0.05 * Rmax (1 / 100000) (Rabs a0)) 0.667 <= lc * 1) by (apply Rmult_le_compat_l; lra). lra. }
  assert (P2 : 1.15 * lc <= rc_ve (rc_at (set_appliances leaky 0 0) one_hour 1 calm_hour a0')).
  { rewrite V9. rewrite Rabs_right, Rmax_right by lra. assert (K : Rpow 1.4 0.667 <= Rpow (0.05 * a0') 0.667) by (apply Rpow_mono; lra). pose proof Rpow_fourteen.
    assert (lc * 1.15 <= lc * Rpow (0.05 * a0') 0.667) by (apply Rmult_le_compat_l; lra). lra. }
  assert (P0 : 0 < rc_ve (rc_at (set_appliances leaky 0 0) one_hour 1 calm_hour a0)) by apply U1.
  pose proof (heated_step _ U1 U2 U3 U4 U5 U6 20 30 m0 m1 a1 qh qc 20 ltac:(lra) M0 ltac:(lra) U7 ltac:(rewrite U8; lra) S1) as K.
  pose proof (heated_step _ V1 V2 V3 V4 V5 V6 20 30 m0' m1' a1' qh' qc' 30 ltac:(lra) M0' ltac:(lra) V7 ltac:(rewrite V8; lra) S1') as K'.
  rewrite U8 in K. rewrite V8 in K'. lra.
Qed.
