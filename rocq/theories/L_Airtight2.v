(** Cases for air tightness. *)
From Coq Require Import Reals Lra Psatz ZArith List Lia.
From Verif Require Import Base Num Xr M_Params M_Hourly M_Map S_RC S_Physical S_Network S_Year S_HourSpec S_Balance S_Compare S_YearCompare S_Insulation S_Airtight E_SmallOffice
  L_Xr L_HourlyR L_HourlySpec L_HourlyFin L_HourlyFin2 L_HourlyShape L_HourlyRun L_HourlyThm L_HourlyThm2 L_HourlyThm3 L_HourlyThm4 L_Office L_Office2
  L_HourlyBalance L_HourlyBalance2 L_Compare L_Compare2 L_Compare3 L_YearCompare L_YearCompare2 L_YearCompare3 L_YearClimate L_Insulation L_Insulation2 L_Recovery L_Airtight.
Import ListNotations.
Open Scope R_scope.

Lemma still_leakier : leakier still_office 4.
Proof. unfold leakier. onum. lra. Qed.
Lemma C109_hour_case_l : let p := still_office in let q := with_n50 p 4 in
  physical p /\ mass_slow p /\ sources_ok p /\ daylit p /\ recovery_ok p /\ leakier p 4 /\ cold_outside (dark_hour 0) 5 20 /\ all_nonneg (we_sol (dark_hour 0)) /\
  exists i i', initialize (map_params Fin q) no_ratios = Ok i /\ initialize (map_params Fin p) no_ratios = Ok i' /\
  (exists qh qc tm ta, hour_gives q i (airy_sched 20 26) (dark_hour 0) {| th_TMT1 := 5; th_ti := 18 |} qh qc tm ta) /\
  exists qh qc tm ta, hour_gives p i' (airy_sched 20 26) (dark_hour 0) {| th_TMT1 := 5; th_ti := 18 |} qh qc tm ta.
Proof.
  cbv zeta. split; [exact still_physical|]. split; [exact office_slow|]. split; [exact office_sources|]. split; [exact still_daylit|]. split; [exact still_recovers|].
  split; [exact still_leakier|]. split; [unfold cold_outside; cbn; lra|]. split; [apply dark_nonneg|].
  pose proof (n50_physical _ 4 still_physical) as HQ.
  destruct (initialize_fin _ HQ no_ratios) as (i & _ & E). destruct (initialize_fin _ still_physical no_ratios) as (i' & _ & E').
  exists (map_hinit Fin i), (map_hinit Fin i'). split; [exact E|]. split; [exact E'|].
  split; apply C90_defined_l; try assumption; try exact still_physical; cbn; lra.
Qed.
Lemma C109_year_case_l : let p := still_office in let q := with_n50 p 4 in
  physical p /\ ordered_setpoints p /\ mass_slow p /\ sources_ok p /\ daylit p /\ recovery_ok p /\ leakier p 4 /\ timetable_of p office_hours /\ encloses 18 22 p /\
  (forall w, In w windy_year -> steady_leak p 18 22 w /\ all_nonneg (we_sol w)) /\ never_warmer 15 windy_year /\
  15 <= ht_tempOcc (pa_heating p) /\ 15 <= ht_tempUnocc (pa_heating p) /\
  (exists raw r, simulateRaw (map_params Fin q) (map (map_weather Fin) windy_year) no_ratios = Ok (raw, r)) /\
  exists raw r, simulateRaw (map_params Fin p) (map (map_weather Fin) windy_year) no_ratios = Ok (raw, r).
Proof.
  cbv zeta. split; [exact still_physical|]. split; [exact still_ordered|]. split; [exact office_slow|]. split; [exact office_sources|]. split; [exact still_daylit|]. split; [exact still_recovers|].
  split; [exact still_leakier|]. split; [exact still_timetable|]. split; [unfold encloses; onum; lra|].
  split; [intros w Hw; apply repeat_spec in Hw; subst w; split; [exact windy_steady|exact windy_nonneg]|].
  split; [apply constant_never; unfold windy_hour; cbn [we_temp]; onum; lra|]. split; [onum; lra|]. split; [onum; lra|].
  split; [|exact (windy_runs 0 0)].
  unfold windy_year. rewrite map_repeat. apply simulateRaw_ok.
  - apply office_ints.
  - reflexivity.
  - rewrite repeat_length. lia.
  - intros w Hw. apply repeat_spec in Hw. subst w. reflexivity.
Qed.

(** ** A warm hour in a cooled-out building *)
Lemma free_below x b m s f : rc_positive x -> slow_net x -> no_gains x -> 0 < b -> rc_out x = b -> rc_sup x = b -> rc_balance x 0 0 m s f -> f < b.
Proof.
  intros HX HC G B0 O U B. assert (L : f <= b) by (apply (free_at_most x b 0 m s f HX HC G); lra || exact B).
  destruct (Rlt_le_dec f b) as [?|K]; [assumption|exfalso]. assert (E : f = b) by lra. subst f. destruct B as (B1 & B2 & B3). destruct G as (G1 & G2 & G3). cbv zeta in *.
  rewrite O, U, G1, G2, G3 in *. destruct HX as (X1 & X2 & X3 & X4 & X5 & X6).
  assert (S : s = b). { assert (rc_is x * (s - b) = 0) by lra. destruct (Rmult_integral _ _ H); lra. } subst s.
  assert (M : m = 2 * b). { assert (rc_ms x * ((0 + m) / 2 - b) = 0) by lra. destruct (Rmult_integral _ _ H); lra. } subst m.
  assert (0 < rc_C x / 3.6 * (2 * b)) by (unfold slow_net in HC; apply Rmult_lt_0_compat; lra).
  replace (b - (0 + 2 * b) / 2) with 0 in B3 by lra. lra.
Qed.
Lemma warm_leak x x' lo m a qh qc m' a' qh' qc' f u v f' u' v' : rc_positive x -> slow_net x -> no_gains x -> rc_out x = 30 -> rc_sup x = 30 ->
  rc_positive x' -> slow_net x' -> no_gains x' -> leaky_net x x' -> rc_ve x' < rc_ve x ->
  rc_balance x 0 0 u v f -> rc_balance x' 0 0 u' v' f' -> f < lo -> f' < lo -> lo < 30 ->
  iso_step x lo 40 0 m a qh qc -> iso_step x' lo 40 0 m' a' qh' qc' -> qh < qh'.
Proof.
  intros HX HC HG O U HX' HC' HG' PN LV F1 F1' L1 L2 L3 ((g & (y & z & F) & T) & (s & B) & P1 & P2 & P3) ((g' & (y' & z' & F') & T') & (s' & B') & P1' & P2' & P3').
  assert (K : g <= f) by (apply (free_mono x x HX (same_net_refl x) HC _ _ _ _ _ _ _ _ F F1); lra).
  assert (K' : g' <= f') by (apply (free_mono x' x' HX' (same_net_refl x') HC' _ _ _ _ _ _ _ _ F' F1'); lra).
  assert (A : a = lo) by (destruct (clamp_cases lo 40 g ltac:(lra)) as [(? & E)|[?|?]]; lra).
  assert (A' : a' = lo) by (destruct (clamp_cases lo 40 g' ltac:(lra)) as [(? & E)|[?|?]]; lra). rewrite A in *. rewrite A' in *. clear A A' T T'.
  assert (Q : 0 <= qh - qc) by (apply (plant_more x _ _ _ _ _ _ _ _ _ HX HC F B); lra).
  assert (Q' : 0 <= qh' - qc') by (apply (plant_more x' _ _ _ _ _ _ _ _ _ HX' HC' F' B'); lra).
  destruct HG as (G1 & G2 & G3). destruct HG' as (G1' & G2' & G3').
  pose proof (recast_air_balance x x' _ _ _ _ _ PN B) as B1. assert (N : same_net (recast_air x x' lo) x') by (constructor; reflexivity). assert (N' : same_net x' (recast_air x x' lo)) by (constructor; reflexivity).
  assert (H2 : rc_phi_st (recast_air x x' lo) = 0) by exact G2. assert (H3 : rc_phi_m (recast_air x x' lo) = 0) by exact G3.
  destruct (masses_mono (recast_air x x' lo) x' HX' N HC' _ _ _ _ _ _ _ _ _ _ B1 B' (Rle_refl lo) (Rle_refl 0) ltac:(lra) ltac:(lra)) as [S1 _].
  destruct (masses_mono x' (recast_air x x' lo) HX' N' HC' _ _ _ _ _ _ _ _ _ _ B' B1 (Rle_refl lo) (Rle_refl 0) ltac:(lra) ltac:(lra)) as [S2 _].
  assert (S : s' = s) by lra. subst s'. destruct B1 as (B1 & _). destruct B' as (B' & _). cbv zeta in *.
  unfold recast_air, with_gains in B1. cbn [rc_ve rc_is rc_w rc_ms rc_em rc_C rc_out rc_sup rc_phi_ia rc_phi_st rc_phi_m] in B1. rewrite G1, O in B1. rewrite G1' in B'.
  assert (0 < (rc_ve x - rc_ve x') * (30 - lo)) by (apply Rmult_lt_0_compat; lra).
  destruct P3 as [-> | ->], P3' as [-> | ->]; lra.
Qed.
Lemma leak_strict : sp_leak still_office < sp_leak (with_n50 still_office 4).
Proof.
  unfold sp_leak, with_n50. cbn [pa_structure pa_ventilation ve_n50]. onum. rewrite !Rmax_right; lra.
Qed.
Lemma exfiltration_strict flow wind tout ti : 0 <= wind -> sp_exfiltration still_office flow wind tout ti < sp_exfiltration (with_n50 still_office 4) flow wind tout ti.
Proof.
  intros _. unfold sp_exfiltration. change (sp_unbalance (with_n50 still_office 4) flow) with (sp_unbalance still_office flow). rewrite balanced, Rabs_R0, !Rmult_0_l, !Rminus_0_r.
  unfold sp_wind, sp_stack. change (ve_dCp (pa_ventilation (with_n50 still_office 4))) with (ve_dCp (pa_ventilation still_office)). change (ve_hzone (pa_ventilation (with_n50 still_office 4))) with (ve_hzone (pa_ventilation still_office)).
  assert (HW : 0 <= Rpow (ve_dCp (pa_ventilation still_office) * (wind * wind)) 0.667) by (apply Rpow_nonneg; apply Rmult_le_pos; [exact (phy_dCp _ still_physical)|nra]).
  assert (HS : 0 < Rpow (0.5 * Rmax (1 / 10) (ve_hzone (pa_ventilation still_office)) * Rmax (1 / 100000) (Rabs (tout - ti))) 0.667).
  { apply Rpow_pos. pose proof (Rmax_l (1 / 10) (ve_hzone (pa_ventilation still_office))). pose proof (Rmax_l (1 / 100000) (Rabs (tout - ti))). apply Rmult_lt_0_compat; lra. }
  revert HW HS. generalize (Rpow (ve_dCp (pa_ventilation still_office) * (wind * wind)) 0.667) (Rpow (0.5 * Rmax (1 / 10) (ve_hzone (pa_ventilation still_office)) * Rmax (1 / 100000) (Rabs (tout - ti))) 0.667). intros W S HW HS.
  pose proof leak_strict as K. assert (P : 0 < sp_leak still_office) by (unfold sp_leak; pose proof (Rmax_l (1 / 1000000) (0.19 * ve_n50 (pa_ventilation still_office) * st_buildingHeight (pa_structure still_office))); lra).
  revert K P. generalize (sp_leak still_office) (sp_leak (with_n50 still_office 4)). intros l l' K P.
  replace (0.0146 * l * S) with (l * (0.0146 * S)) by ring. replace (0.0769 * l * W) with (l * (0.0769 * W)) by ring. replace (0.0146 * l' * S) with (l' * (0.0146 * S)) by ring. replace (0.0769 * l' * W) with (l' * (0.0769 * W)) by ring.
  rewrite !RmaxRmult by lra. assert (M : 0 < Rmax (0.0146 * S) (0.0769 * W)) by (eapply Rlt_le_trans; [|apply Rmax_l]; lra). revert M. generalize (Rmax (0.0146 * S) (0.0769 * W)). intros M HM.
  assert (0 < l * M) by (apply Rmult_lt_0_compat; lra). assert (l * M < l' * M) by (apply Rmult_lt_compat_r; lra). rewrite !Rmax_right; lra.
Qed.
Lemma C109_refuted_l : exists p n i i' sc w th qh qc tm ta qh' qc' tm' ta', let q := with_n50 p n in
  physical p /\ mass_slow p /\ sources_ok p /\ daylit p /\ recovery_ok p /\ leakier p n /\
  initialize (map_params Fin q) no_ratios = Ok i /\ initialize (map_params Fin p) no_ratios = Ok i' /\
  0 <= sc_vent sc /\ 0 <= sc_intEquip sc /\ 0 <= sc_intLight sc /\ all_nonneg (we_sol w) /\ sc_heatSP sc <= sc_coolSP sc /\
  hour_gives q i sc w th qh qc tm ta /\ hour_gives p i' sc w th qh' qc' tm' ta' /\ qh < qh'.
Proof.
  pose proof (n50_physical _ 4 still_physical) as HQ.
  destruct (initialize_fin _ HQ no_ratios) as (i & _ & E). destruct (initialize_fin _ still_physical no_ratios) as (i' & _ & E').
  set (w := dark_hour 30). set (th := {| th_TMT1 := 0; th_ti := 18 |}).
  set (sc0 := idle_sched 20 26). assert (V0 : 0 <= sc_vent sc0) by apply Rle_refl. assert (S0 : sc_heatSP sc0 <= sc_coolSP sc0) by (cbn; lra).
  destruct (C90_defined_l _ _ sc0 w th HQ V0 S0 E) as (a1 & a2 & a3 & a4 & H0). destruct (C90_defined_l _ _ sc0 w th still_physical V0 S0 E') as (b1 & b2 & b3 & b4 & H0').
  destruct (hour_step _ _ _ _ _ _ _ _ _ HQ V0 S0 E H0) as ((f & (u & v & F) & _) & _). destruct (hour_step _ _ _ _ _ _ _ _ _ still_physical V0 S0 E' H0') as ((f' & (u' & v' & F') & _) & _).
  pose proof (hour_net_pos _ _ sc0 w th HQ V0 E) as X1. pose proof (hour_net_pos _ _ sc0 w th still_physical V0 E') as X2.
  assert (QT : forall b, sp_supplied b = sp_supplied still_office -> quiet b 30 30 (idle_sched 30 30) w).
  { intros b EB. assert (T : sp_supplied still_office 30 = 30) by (apply office_supplied; lra). unfold w.
    constructor; cbn [idle_sched sc_vent sc_intEquip sc_intLight sc_heatSP sc_coolSP dark_hour we_temp]; rewrite ?EB, ?T; try lra; try reflexivity. apply Forall_dark. }
  destruct (quiet_rc _ 30 30 _ _ 18 HQ (QT (with_n50 still_office 4) eq_refl)) as (N1 & O1 & U1). destruct (quiet_rc _ 30 30 _ _ 18 still_physical (QT still_office eq_refl)) as (N2 & O2 & U2).
  cbn [sc0 idle_sched sc_vent sc_intEquip sc_intLight sc_heatSP sc_coolSP th th_ti th_TMT1] in *.
  assert (L1 : f < 30) by (refine (free_below _ 30 _ _ _ X1 office_slow N1 _ _ _ F); lra). assert (L2 : f' < 30) by (refine (free_below _ 30 _ _ _ X2 office_slow N2 _ _ _ F'); lra).
  set (lo := (Rmax f f' + 30) / 2). assert (L : f < lo /\ f' < lo /\ lo < 30). { pose proof (Rmax_l f f'). pose proof (Rmax_r f f'). pose proof (Rmax_lub_lt _ _ _ L1 L2). unfold lo. lra. }
  clearbody lo. destruct L as (K1 & K2 & K3).
  set (sc := idle_sched lo 40). assert (V : 0 <= sc_vent sc) by apply Rle_refl. assert (S : sc_heatSP sc <= sc_coolSP sc) by (cbn; lra).
  destruct (C90_defined_l _ _ sc w th HQ V S E) as (qh & qc & tm & ta & H). destruct (C90_defined_l _ _ sc w th still_physical V S E') as (qh' & qc' & tm' & ta' & H').
  exists still_office, 4, (map_hinit Fin i), (map_hinit Fin i'), sc, w, th, qh, qc, tm, ta, qh', qc', tm', ta'. cbv zeta.
  split; [exact still_physical|]. split; [exact office_slow|]. split; [exact office_sources|]. split; [exact still_daylit|]. split; [exact still_recovers|].
  split; [exact still_leakier|]. split; [exact E|]. split; [exact E'|]. split; [exact V|]. split; [cbn; lra|]. split; [cbn; lra|]. split; [apply dark_nonneg|]. split; [exact S|].
  split; [exact H|]. split; [exact H'|].
  pose proof (hour_step _ _ _ _ _ _ _ _ _ HQ V S E H) as S1. pose proof (hour_step _ _ _ _ _ _ _ _ _ still_physical V S E' H') as S2.
  pose proof (n50_net still_office 4 0 0 0 w 18 18 still_physical still_leakier X1 X2 eq_refl) as PN.
  cbn [sc idle_sched sc_vent sc_intEquip sc_intLight sc_heatSP sc_coolSP th th_ti th_TMT1] in *.
  refine (warm_leak _ _ _ _ _ _ _ _ _ _ _ _ _ _ _ _ _ X1 office_slow N1 _ _ X2 office_slow N2 PN _ F F' K1 K2 K3 S1 S2); try lra.
  change (0.34 * (sp_envelope still_office 0 2 30 18 + sp_supply still_office 0) < 0.34 * (sp_envelope (with_n50 still_office 4) 0 2 30 18 + sp_supply still_office 0)).
  unfold sp_envelope. change (sp_unbalance (with_n50 still_office 4)) with (sp_unbalance still_office). pose proof (exfiltration_strict 0 2 30 18 ltac:(lra)). lra.
Qed.
