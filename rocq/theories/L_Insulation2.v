(** Cases for better windows. *)
From Coq Require Import Reals Lra Psatz ZArith List Lia.
From Verif Require Import Base Num Xr M_Params M_Hourly M_Map S_RC S_Physical S_Network S_Year S_HourSpec S_Balance S_Compare S_YearCompare S_MonthlyCompare S_Insulation E_SmallOffice
  L_Xr L_HourlyR L_HourlySpec L_HourlyFin L_HourlyFin2 L_HourlyShape L_HourlyRun L_HourlyThm L_HourlyThm2 L_HourlyThm3 L_HourlyThm4 L_Office L_Office2
  L_HourlyBalance L_HourlyBalance2 L_Compare L_Compare2 L_Compare3 L_YearCompare L_YearCompare2 L_YearCompare3 L_YearClimate L_Insulation.
Import ListNotations.
Open Scope R_scope.

(** Windows of 4 W/K per m2. *)
Definition single_panes : list R := repeat 4 9.
Lemma panes_poorer : poorer_windows still_office single_panes.
Proof. unfold poorer_windows, single_panes. onum. cbn [repeat]. repeat constructor; lra. Qed.
Lemma panes_sources : sources_ok (glazed still_office single_panes).
Proof.
  pose proof office_sources as []. constructor; try assumption.
  change (sp_mass_area (sp_capacity still_office) + sp_windows (glazed still_office single_panes) / sp_h_ms still_office <= st_totalAreaPerFloorArea (pa_structure still_office)).
  assert (E1 : sp_mass_area (sp_capacity still_office) <= 3.5).
  { unfold sp_mass_area, clamp.
    assert (H : forall x, Rmax 0 (Rmin 1 x) <= 1) by (intros x; apply Rmax_lub; [lra|apply Rmin_l]).
    pose proof (H ((sp_capacity still_office - 165) / 95)). pose proof (H ((sp_capacity still_office - 260) / 110)). lra. }
  assert (E2 : sp_windows (glazed still_office single_panes) / sp_h_ms still_office <= 0.5).
  { unfold sp_windows, sp_h_ms, dot, glazed, varied, single_panes. unfold Rsum. cbn [pa_structure st_windowU st_windowArea st_floorArea repeat]. onum. lra. }
  apply Rle_trans with 4; [lra|onum; lra].
Qed.
Lemma still_daylit : daylit still_office. Proof. exact (proj1 (proj2 (proj2 (proj2 (proj2 (proj2 C79_case_l)))))). Qed.
Lemma still_recovers : recovery_ok still_office. Proof. exact (proj1 (proj2 (proj2 C79_case_l))). Qed.
Lemma dark_nonneg t : all_nonneg (we_sol (dark_hour t)).
Proof. intros x Hx. cbn [dark_hour we_sol] in Hx. apply repeat_spec in Hx. lra. Qed.
Lemma windy_nonneg : all_nonneg (we_sol (windy_hour (T := R))).
Proof. intros x Hx. unfold windy_hour in Hx. cbn [we_sol] in Hx. apply repeat_spec in Hx. subst x. onum. lra. Qed.

Lemma C107_case_l : let p := still_office in let q := glazed p single_panes in
  physical p /\ mass_slow p /\ sources_ok q /\ daylit p /\ recovery_ok p /\ poorer_windows p single_panes /\ cold_outside (dark_hour 0) 5 20 /\ all_nonneg (we_sol (dark_hour 0)) /\
  exists i i', initialize (map_params Fin q) no_ratios = Ok i /\ initialize (map_params Fin p) no_ratios = Ok i' /\
  (exists qh qc tm ta, hour_gives q i (idle_sched 20 26) (dark_hour 0) {| th_TMT1 := 5; th_ti := 18 |} qh qc tm ta) /\
  exists qh qc tm ta, hour_gives p i' (idle_sched 20 26) (dark_hour 0) {| th_TMT1 := 5; th_ti := 18 |} qh qc tm ta.
Proof.
  cbv zeta. split; [exact still_physical|]. split; [exact office_slow|]. split; [exact panes_sources|]. split; [exact still_daylit|]. split; [exact still_recovers|].
  split; [exact panes_poorer|]. split; [unfold cold_outside; cbn; lra|]. split; [apply dark_nonneg|].
  pose proof (glazed_physical _ _ still_physical panes_poorer) as HQ.
  destruct (initialize_fin _ HQ no_ratios) as (i & _ & E). destruct (initialize_fin _ still_physical no_ratios) as (i' & _ & E').
  exists (map_hinit Fin i), (map_hinit Fin i'). split; [exact E|]. split; [exact E'|].
  split; apply C90_defined_l; try assumption; try exact still_physical; cbn; lra.
Qed.
Lemma constant_never t n w : we_temp w <= t -> never_warmer t (repeat w n).
Proof. revert t. induction n as [|n IH]; intros t H; [exact I|]. split; [exact H|apply IH, Rle_refl]. Qed.
Lemma C107_year_case_l : let p := still_office in let q := glazed p single_panes in
  physical p /\ ordered_setpoints p /\ mass_slow p /\ sources_ok q /\ daylit p /\ recovery_ok p /\ poorer_windows p single_panes /\ timetable_of p office_hours /\ encloses 18 22 p /\
  (forall w, In w windy_year -> steady_leak p 18 22 w /\ all_nonneg (we_sol w)) /\ never_warmer 15 windy_year /\
  15 <= ht_tempOcc (pa_heating p) /\ 15 <= ht_tempUnocc (pa_heating p) /\
  (exists raw r, simulateRaw (map_params Fin q) (map (map_weather Fin) windy_year) no_ratios = Ok (raw, r)) /\
  exists raw r, simulateRaw (map_params Fin p) (map (map_weather Fin) windy_year) no_ratios = Ok (raw, r).
Proof.
  cbv zeta. split; [exact still_physical|]. split; [exact still_ordered|]. split; [exact office_slow|]. split; [exact panes_sources|]. split; [exact still_daylit|]. split; [exact still_recovers|].
  split; [exact panes_poorer|]. split; [exact still_timetable|]. split; [unfold encloses; onum; lra|].
  split; [intros w Hw; apply repeat_spec in Hw; subst w; split; [exact windy_steady|exact windy_nonneg]|].
  split; [apply constant_never; unfold windy_hour; cbn [we_temp]; onum; lra|]. split; [onum; lra|]. split; [onum; lra|].
  split; [|exact (windy_runs 0 0)].
  unfold windy_year. rewrite map_repeat. apply simulateRaw_ok.
  - apply office_ints.
  - reflexivity.
  - rewrite repeat_length. lia.
  - intros w Hw. apply repeat_spec in Hw. subst w. reflexivity.
Qed.

(** ** An hour warmer outside than the surfaces *)
Lemma held_below x q m s : rc_positive x -> slow_net x -> rc_phi_st x = 0 -> rc_phi_m x = 0 -> rc_out x = 19 -> rc_balance x q 0 m s 20 -> m <= 20.
Proof.
  intros HX HC G2 G3 O B. set (y := with_gains x (rc_ve x * (20 - rc_sup x)) (rc_w x * (20 - rc_out x)) (rc_em x * (20 - rc_out x))).
  assert (BY : rc_balance y 0 20 20 20 20) by (unfold y, rc_balance, with_gains; cbn [rc_ve rc_is rc_w rc_ms rc_em rc_C rc_out rc_sup rc_phi_ia rc_phi_st rc_phi_m]; cbv zeta; repeat split; lra).
  assert (N : same_net x y) by (constructor; reflexivity). destruct HX as (X1 & X2 & X3 & X4 & X5 & X6).
  assert (0 <= rc_w x * (20 - rc_out x)) by (apply Rmult_le_pos; lra). assert (0 <= rc_em x * (20 - rc_out x)) by (apply Rmult_le_pos; lra).
  refine (proj2 (masses_mono x y _ N HC _ _ _ _ _ _ _ _ _ _ B BY (Rle_refl 20) _ _ _)); [unfold rc_positive; auto|lra| |]; unfold y, with_gains; cbn [rc_phi_st rc_phi_m]; lra.
Qed.
Lemma surface_below x q m s : rc_positive x -> slow_net x -> rc_phi_st x = 0 -> rc_phi_m x = 0 -> rc_out x = 19 -> rc_is x <= 100 -> 20 <= rc_ms x -> rc_balance x q 0 m s 20 -> s < 19.
Proof.
  intros HX HC G2 G3 O I M B. pose proof (held_below x q m s HX HC G2 G3 O B) as K. destruct B as (_ & B & _). cbv zeta in B. rewrite G2, O in B.
  destruct (Rlt_le_dec s 19) as [L|L]; [exact L|exfalso]. destruct HX as (X1 & X2 & X3 & _).
  assert (rc_is x * (20 - s) <= rc_is x * 1) by (apply Rmult_le_compat_l; lra). assert (rc_w x * (19 - s) <= 0) by nra. assert (rc_ms x * ((0 + m) / 2 - s) <= rc_ms x * (-9)) by (apply Rmult_le_compat_l; lra). lra.
Qed.
Lemma freely_below x m s f : rc_positive x -> slow_net x -> no_gains x -> rc_out x = 19 -> rc_sup x = 19 -> rc_balance x 0 0 m s f -> f <= 19.
Proof.
  intros HX HC (G1 & G2 & G3) O U B.
  assert (Z : rc_balance x 0 19 19 19 19) by (unfold rc_balance; cbv zeta; rewrite O, U, G1, G2, G3; repeat split; lra).
  apply (free_mono x x HX (same_net_refl x) HC _ _ _ _ _ _ _ _ B Z); lra.
Qed.
Lemma warm_outside x x' m a qh qc m' a' qh' qc' : rc_positive x -> slow_net x -> no_gains x -> rc_out x = 19 -> rc_sup x = 19 -> rc_is x <= 100 -> 20 <= rc_ms x ->
  rc_positive x' -> slow_net x' -> no_gains x' -> poorer_net x x' -> rc_w x' < rc_w x ->
  iso_step x 20 26 0 m a qh qc -> iso_step x' 20 26 0 m' a' qh' qc' -> qh < qh'.
Proof.
  intros HX HC HG O U I M HX' HC' HG' PN LW ((f & (u & v & F) & T) & (s & B) & P1 & P2 & P3) ((f' & (u' & v' & F') & T') & (s' & B') & P1' & P2' & P3').
  assert (O' : rc_out x' = 19) by (destruct PN; lra). assert (U' : rc_sup x' = 19) by (destruct PN; lra).
  pose proof (freely_below x _ _ _ HX HC HG O U F) as K. pose proof (freely_below x' _ _ _ HX' HC' HG' O' U' F') as K'.
  assert (A : a = 20) by (destruct (clamp_cases 20 26 f ltac:(lra)) as [(? & E)|[?|?]]; lra).
  assert (A' : a' = 20) by (destruct (clamp_cases 20 26 f' ltac:(lra)) as [(? & E)|[?|?]]; lra). subst a a'. rewrite A in *. rewrite A' in *. clear A A'.
  assert (Q : 0 <= qh - qc) by (apply (plant_more x _ _ _ _ _ _ _ _ _ HX HC F B); lra).
  assert (Q' : 0 <= qh' - qc') by (apply (plant_more x' _ _ _ _ _ _ _ _ _ HX' HC' F' B'); lra).
  destruct HG as (G1 & G2 & G3). destruct HG' as (G1' & G2' & G3').
  pose proof (surface_below x _ _ _ HX HC G2 G3 O I M B) as SB.
  assert (D : s' < s).
  { pose proof (recast_windows_balance x x' _ _ _ _ _ PN B) as B1.
    assert (N : same_net x' (recast_windows x x' s)) by (constructor; reflexivity).
    assert (G : 0 < (rc_w x - rc_w x') * (rc_out x - s)) by (apply Rmult_lt_0_compat; lra).
    assert (J2 : rc_phi_st (recast_windows x x' s) = (rc_w x - rc_w x') * (rc_out x - s)) by (unfold recast_windows, with_gains; cbn [rc_phi_st]; lra).
    assert (J3 : rc_phi_m (recast_windows x x' s) = 0) by (unfold recast_windows, with_gains; cbn [rc_phi_m]; lra).
    destruct (masses_mono x' _ HX' N HC' _ _ _ _ _ _ _ _ _ _ B' B1 (Rle_refl 20) (Rle_refl 0) ltac:(lra) ltac:(lra)) as [S1 M1].
    destruct (balance_diff x' _ N _ _ _ _ _ _ _ _ _ _ B' B1) as (_ & E2 & _). rewrite J2 in E2. destruct HX' as (X1 & X2 & X3 & X4 & _).
    destruct (Rlt_le_dec s' s) as [L|L]; [exact L|exfalso]. replace (s - s') with 0 in E2 by lra.
    assert (0 <= rc_ms x' * ((0 - 0 + (m - m')) / 2)) by (apply Rmult_le_pos; lra). lra. }
  destruct B as (B & _). destruct B' as (B' & _). rewrite G1 in B. rewrite G1' in B'. rewrite <- (pn_ve _ _ PN), <- (pn_is _ _ PN), <- (pn_sup _ _ PN) in B'.
  destruct HX as (X1 & X2 & _). assert (0 < rc_is x * (s - s')) by (apply Rmult_lt_0_compat; lra).
  destruct P3 as [-> | ->], P3' as [-> | ->]; lra.
Qed.
Lemma panes_windows : sp_windows still_office < sp_windows (glazed still_office single_panes).
Proof. unfold sp_windows, dot, glazed, varied, single_panes. unfold Rsum. cbn [pa_structure st_windowU st_windowArea st_floorArea repeat]. onum. lra. Qed.
Lemma office_is : sp_is office <= 100.
Proof. unfold sp_is, sp_h_ms. onum. lra. Qed.
Lemma C107_refuted_l : exists p us i i' sc w th qh qc tm ta qh' qc' tm' ta', let q := glazed p us in
  physical p /\ mass_slow p /\ sources_ok q /\ daylit p /\ recovery_ok p /\ poorer_windows p us /\
  initialize (map_params Fin q) no_ratios = Ok i /\ initialize (map_params Fin p) no_ratios = Ok i' /\
  0 <= sc_vent sc /\ 0 <= sc_intEquip sc /\ 0 <= sc_intLight sc /\ all_nonneg (we_sol w) /\ sc_heatSP sc <= sc_coolSP sc /\ we_temp w <= sc_heatSP sc /\ we_temp w <= 20 /\
  hour_gives q i sc w th qh qc tm ta /\ hour_gives p i' sc w th qh' qc' tm' ta' /\ qh < qh'.
Proof.
  pose proof (glazed_physical _ _ still_physical panes_poorer) as HQ.
  destruct (initialize_fin _ HQ no_ratios) as (i & _ & E). destruct (initialize_fin _ still_physical no_ratios) as (i' & _ & E').
  set (sc := idle_sched 20 26). set (w := dark_hour 19). set (th := {| th_TMT1 := 0; th_ti := 18 |}).
  assert (V : 0 <= sc_vent sc) by apply Rle_refl. assert (S : sc_heatSP sc <= sc_coolSP sc) by (cbn; lra).
  destruct (C90_defined_l _ _ sc w th HQ V S E) as (qh & qc & tm & ta & H). destruct (C90_defined_l _ _ sc w th still_physical V S E') as (qh' & qc' & tm' & ta' & H').
  exists still_office, single_panes, (map_hinit Fin i), (map_hinit Fin i'), sc, w, th, qh, qc, tm, ta, qh', qc', tm', ta'. cbv zeta.
  split; [exact still_physical|]. split; [exact office_slow|]. split; [exact panes_sources|]. split; [exact still_daylit|]. split; [exact still_recovers|].
  split; [exact panes_poorer|]. split; [exact E|]. split; [exact E'|]. split; [exact V|]. split; [cbn; lra|]. split; [cbn; lra|]. split; [apply dark_nonneg|]. split; [exact S|].
  split; [cbn; lra|]. split; [cbn; lra|]. split; [exact H|]. split; [exact H'|].
  pose proof (hour_step _ _ _ _ _ _ _ _ _ HQ V S E H) as S1. pose proof (hour_step _ _ _ _ _ _ _ _ _ still_physical V S E' H') as S2.
  pose proof (hour_net_pos _ _ sc w th HQ V E) as X1. pose proof (hour_net_pos _ _ sc w th still_physical V E') as X2.
  assert (QT : forall b, sp_supplied b = sp_supplied still_office -> quiet b 19 19 (idle_sched 19 19) w).
  { intros b EB. assert (T : sp_supplied still_office 19 = 19) by (apply office_supplied; lra). unfold w.
    constructor; cbn [idle_sched sc_vent sc_intEquip sc_intLight sc_heatSP sc_coolSP dark_hour we_temp]; rewrite ?EB, ?T; try lra; try reflexivity. apply Forall_dark. }
  destruct (quiet_rc _ 19 19 _ _ 18 HQ (QT (glazed still_office single_panes) eq_refl)) as (N1 & O1 & U1). destruct (quiet_rc _ 19 19 _ _ 18 still_physical (QT still_office eq_refl)) as (N2 & O2 & U2).
  pose proof (glazed_poorer still_office single_panes still_physical panes_poorer panes_sources still_daylit 0 0 0 w (Rle_refl 0) (Rle_refl 0) (dark_nonneg 19) 18 18 eq_refl) as PN.
  cbn [sc idle_sched sc_vent sc_intEquip sc_intLight sc_heatSP sc_coolSP th th_ti th_TMT1] in *.
  refine (warm_outside _ _ _ _ _ _ _ _ _ _ X1 office_slow N1 _ _ office_is _ X2 office_slow N2 PN panes_windows S1 S2); try lra.
  change (20 <= sp_ms office). rewrite office_ms. lra.
Qed.
