(** Cases for better insulated walls. *)
From Coq Require Import Reals Lra Psatz ZArith List Lia.
From Verif Require Import Base Num Xr M_Params M_Hourly M_Map S_RC S_Physical S_Network S_Year S_HourSpec S_Balance S_Compare S_YearCompare S_Insulation S_Walls E_SmallOffice
  L_Xr L_HourlyR L_HourlySpec L_HourlyFin L_HourlyFin2 L_HourlyShape L_HourlyRun L_HourlyThm L_HourlyThm2 L_HourlyThm3 L_HourlyThm4 L_Office L_Office2
  L_HourlyBalance L_HourlyBalance2 L_Compare L_Compare2 L_Compare3 L_YearCompare L_YearCompare2 L_YearCompare3 L_YearClimate L_Insulation L_Insulation2 L_Recovery L_Airtight L_Airtight2 L_Walls.
Import ListNotations.
Open Scope R_scope.

(** Walls of 0.5 and a roof of 3 W/m2K instead of 0.363 and 2.494. *)
Definition thin_walls : list R := [0.5; 0; 0.5; 0; 0.5; 0; 0.5; 0; 3].
Definition thin_office : params_t R := walled still_office thin_walls.
Lemma thin_poorer : poorer_walls still_office thin_walls.
Proof. unfold poorer_walls, thin_walls. onum. repeat constructor; lra. Qed.
Lemma thin_opaque : 3 <= sp_opaque thin_office <= 4.
Proof. unfold sp_opaque, thin_office, walled, thin_walls, dot, Rsum. onum. unfold Rmax. destruct (Rle_dec _ _); lra. Qed.
Lemma thin_physical : physical thin_office.
Proof.
  pose proof still_physical as H. pose proof thin_opaque as [_ O]. unfold sp_opaque in O. destruct H. constructor; try assumption; try reflexivity.
  - intros x Hx. unfold thin_office, walled, thin_walls in Hx. cbn [pa_structure st_wallU] in Hx. cbn in Hx. intuition lra.
  - eapply Rle_lt_trans; [exact O|]. onum. lra.
Qed.
Lemma thin_slow_mass : mass_slow thin_office.
Proof.
  unfold mass_slow, sp_em. change (sp_ms thin_office) with (sp_ms office). change (sp_capacity thin_office) with (sp_capacity office).
  rewrite office_ms. pose proof thin_opaque as [A B]. pose proof office_capacity as [C D].
  assert (sp_opaque thin_office * 22.75 / (22.75 - sp_opaque thin_office) <= 10); [|lra].
  apply Rmult_le_reg_r with (22.75 - sp_opaque thin_office); [lra|]. unfold Rdiv. rewrite Rmult_assoc, Rinv_l by lra. lra.
Qed.
Lemma dark_unlit p t : unlit_walls p (dark_hour t).
Proof. intros k. replace (nth k (we_sol (dark_hour t)) 0) with 0; [ring|]. do 9 (destruct k as [|k]; [reflexivity|]). destruct k; reflexivity. Qed.
Lemma windy_unlit p : unlit_walls p (windy_hour (T := R)).
Proof.
  intros k. assert (E : nth k (we_sol (windy_hour (T := R))) 0 = 0); [|rewrite E; ring].
  destruct (nth_in_or_default k (we_sol (windy_hour (T := R))) 0) as [I|I]; [|exact I]. unfold windy_hour in I at 2. cbn [we_sol] in I. apply repeat_spec in I. rewrite I. onum. lra.
Qed.
Lemma C111_hour_case_l : let p := still_office in let q := walled p thin_walls in
  physical p /\ physical q /\ mass_slow q /\ sources_ok p /\ daylit p /\ recovery_ok p /\ poorer_walls p thin_walls /\ cold_outside (dark_hour 0) 5 20 /\ all_nonneg (we_sol (dark_hour 0)) /\
  unlit_walls p (dark_hour 0) /\
  exists i i', initialize (map_params Fin q) no_ratios = Ok i /\ initialize (map_params Fin p) no_ratios = Ok i' /\
  (exists qh qc tm ta, hour_gives q i (airy_sched 20 26) (dark_hour 0) {| th_TMT1 := 5; th_ti := 18 |} qh qc tm ta) /\
  exists qh qc tm ta, hour_gives p i' (airy_sched 20 26) (dark_hour 0) {| th_TMT1 := 5; th_ti := 18 |} qh qc tm ta.
Proof.
  cbv zeta. split; [exact still_physical|]. split; [exact thin_physical|]. split; [exact thin_slow_mass|]. split; [exact office_sources|]. split; [exact still_daylit|]. split; [exact still_recovers|].
  split; [exact thin_poorer|]. split; [unfold cold_outside; cbn; lra|]. split; [apply dark_nonneg|]. split; [apply dark_unlit|].
  pose proof thin_physical as HQ.
  destruct (initialize_fin _ HQ no_ratios) as (i & _ & E). destruct (initialize_fin _ still_physical no_ratios) as (i' & _ & E').
  exists (map_hinit Fin i), (map_hinit Fin i'). split; [exact E|]. split; [exact E'|].
  split; apply C90_defined_l; try assumption; try exact still_physical; cbn; lra.
Qed.
Lemma C111_year_case_l : let p := still_office in let q := walled p thin_walls in
  physical p /\ physical q /\ ordered_setpoints p /\ mass_slow q /\ sources_ok p /\ daylit p /\ recovery_ok p /\ poorer_walls p thin_walls /\ timetable_of p office_hours /\ encloses 18 22 p /\
  (forall w, In w windy_year -> steady_leak p 18 22 w /\ all_nonneg (we_sol w) /\ unlit_walls p w) /\ never_warmer 15 windy_year /\
  15 <= ht_tempOcc (pa_heating p) /\ 15 <= ht_tempUnocc (pa_heating p) /\
  (exists raw r, simulateRaw (map_params Fin q) (map (map_weather Fin) windy_year) no_ratios = Ok (raw, r)) /\
  exists raw r, simulateRaw (map_params Fin p) (map (map_weather Fin) windy_year) no_ratios = Ok (raw, r).
Proof.
  cbv zeta. split; [exact still_physical|]. split; [exact thin_physical|]. split; [exact still_ordered|]. split; [exact thin_slow_mass|]. split; [exact office_sources|]. split; [exact still_daylit|]. split; [exact still_recovers|].
  split; [exact thin_poorer|]. split; [exact still_timetable|]. split; [unfold encloses; onum; lra|].
  split; [intros w Hw; apply repeat_spec in Hw; subst w; split; [exact windy_steady|split; [exact windy_nonneg|apply windy_unlit]]|].
  split; [apply constant_never; unfold windy_hour; cbn [we_temp]; onum; lra|]. split; [onum; lra|]. split; [onum; lra|].
  split; [|exact (windy_runs 0 0)].
  unfold windy_year. rewrite map_repeat. apply simulateRaw_ok.
  - apply office_ints.
  - reflexivity.
  - rewrite repeat_length. lia.
  - intros w Hw. apply repeat_spec in Hw. subst w. reflexivity.
Qed.

(** ** A warm hour in a cooled-out building *)
Lemma warm_walls x x' lo m a qh qc m' a' qh' qc' f u v f' u' v' : rc_positive x -> slow_net x -> no_gains x -> rc_out x = 30 -> rc_sup x = 30 ->
  rc_positive x' -> slow_net x' -> no_gains x' -> thin_net x x' -> rc_em x' < rc_em x ->
  rc_balance x 0 0 u v f -> rc_balance x' 0 0 u' v' f' -> f < lo -> f' < lo -> lo < 30 ->
  iso_step x lo 40 0 m a qh qc -> iso_step x' lo 40 0 m' a' qh' qc' -> qh < qh'.
Proof.
  intros HX HC HG O U HX' HC' HG' PN LV F1 F1' L1 L2 L3 ((g & (y & z & F) & T) & (s & B) & P1 & P2 & P3) ((g' & (y' & z' & F') & T') & (s' & B') & P1' & P2' & P3').
  assert (K : g <= f) by (apply (free_mono x x HX (same_net_refl x) HC _ _ _ _ _ _ _ _ F F1); lra).
  assert (K' : g' <= f') by (apply (free_mono x' x' HX' (same_net_refl x') HC' _ _ _ _ _ _ _ _ F' F1'); lra).
  assert (A : a = lo) by (destruct (clamp_cases lo 40 g ltac:(lra)) as [(? & E)|[?|?]]; lra).
  assert (A' : a' = lo) by (destruct (clamp_cases lo 40 g' ltac:(lra)) as [(? & E)|[?|?]]; lra). rewrite A in *. rewrite A' in *. clear A A' T T'.
  assert (Q : 0 <= qh - qc) by (apply (plant_more x _ _ _ _ _ _ _ _ _ HX HC F B); lra).
  assert (Q' : 0 <= qh' - qc') by (apply (plant_more x' _ _ _ _ _ _ _ _ _ HX' HC' F' B'); lra).
  destruct HG as (G1 & G2 & G3). destruct HG' as (G1' & G2' & G3').
  pose proof (outside_balance x) as OB. rewrite O, U in OB. set (zz := with_gains x (rc_ve x * (30 - 30)) 0 0) in OB.
  assert (NZ : same_net x zz) by (constructor; reflexivity).
  assert (ZG : rc_phi_st zz = 0 /\ rc_phi_m zz = 0) by (split; reflexivity). destruct ZG as [ZG1 ZG2].
  destruct (masses_mono x zz HX NZ HC _ _ _ _ _ _ _ _ _ _ B OB ltac:(lra) ltac:(lra) ltac:(lra) ltac:(lra)) as [_ M30]. clear OB ZG1 ZG2 NZ. clear zz.
  pose proof (recast_mass_balance x x' _ _ _ _ _ PN B) as B1. set (t := (0 + m) / 2) in *. assert (T30 : t < 30) by (unfold t; lra).
  assert (N' : same_net x' (recast_mass x x' t)) by (constructor; reflexivity).
  assert (PP : 0 < (rc_em x - rc_em x') * (30 - t)) by (apply Rmult_lt_0_compat; lra).
  assert (H2 : rc_phi_st (recast_mass x x' t) = 0) by exact G2. assert (H3 : rc_phi_m (recast_mass x x' t) = (rc_em x - rc_em x') * (30 - t)) by (unfold recast_mass, with_gains; cbn [rc_phi_m]; rewrite G3, O; ring).
  destruct (masses_mono x' (recast_mass x x' t) HX' N' HC' _ _ _ _ _ _ _ _ _ _ B' B1 (Rle_refl lo) (Rle_refl 0) ltac:(lra) ltac:(lra)) as [S2 M2].
  destruct B1 as (B1 & B2 & B3). destruct B' as (B1' & B2' & B3'). cbv zeta in *.
  rewrite H2 in B2. rewrite H3 in B3. unfold recast_mass, with_gains in B1, B2, B3. cbn [rc_ve rc_is rc_w rc_ms rc_em rc_C rc_out rc_sup rc_phi_ia rc_phi_st rc_phi_m] in B1, B2, B3.
  rewrite G1 in B1. rewrite G1' in B1'. rewrite G2' in B2'. rewrite G3' in B3'. pose proof HX' as (X1 & X2 & X3 & X4 & X5 & X6).
  assert (ST : s' < s).
  { destruct (Rlt_le_dec s' s) as [?|N]; [assumption|exfalso]. assert (E : s' = s) by lra. subst s'.
    assert (EM : rc_ms x' * ((0 + m) / 2 - (0 + m') / 2) = 0) by lra. assert (ME : m = m') by (destruct (Rmult_integral _ _ EM); lra). subst m'. lra. }
  assert (0 < rc_is x' * (s - s')) by (apply Rmult_lt_0_compat; lra).
  destruct P3 as [-> | ->], P3' as [-> | ->]; lra.
Qed.
Lemma thin_em : sp_em still_office < sp_em thin_office.
Proof.
  unfold sp_em. change (sp_ms thin_office) with (sp_ms office). change (sp_ms still_office) with (sp_ms office). rewrite office_ms. pose proof thin_opaque as [A B].
  assert (C : sp_opaque still_office < sp_opaque thin_office).
  { unfold sp_opaque, thin_office, walled, thin_walls, dot, Rsum. onum. rewrite !Rmax_left; lra. }
  assert (D : 0 < sp_opaque still_office) by (exact (proj1 (coupling _ still_physical))).
  revert A B C D. generalize (sp_opaque still_office) (sp_opaque thin_office). intros a b A B C D.
  apply Rmult_lt_reg_r with ((22.75 - a) * (22.75 - b)); [apply Rmult_lt_0_compat; lra|].
  replace (a * 22.75 / (22.75 - a) * ((22.75 - a) * (22.75 - b))) with (a * 22.75 * (22.75 - b)) by (field; lra).
  replace (b * 22.75 / (22.75 - b) * ((22.75 - a) * (22.75 - b))) with (b * 22.75 * (22.75 - a)) by (field; lra). nra.
Qed.
Lemma C111_refuted_l : exists p us i i' sc w th qh qc tm ta qh' qc' tm' ta', let q := walled p us in
  physical p /\ physical q /\ mass_slow q /\ sources_ok p /\ daylit p /\ recovery_ok p /\ poorer_walls p us /\
  initialize (map_params Fin q) no_ratios = Ok i /\ initialize (map_params Fin p) no_ratios = Ok i' /\
  0 <= sc_vent sc /\ 0 <= sc_intEquip sc /\ 0 <= sc_intLight sc /\ all_nonneg (we_sol w) /\ unlit_walls p w /\ sc_heatSP sc <= sc_coolSP sc /\
  hour_gives q i sc w th qh qc tm ta /\ hour_gives p i' sc w th qh' qc' tm' ta' /\ qh < qh'.
Proof.
  pose proof thin_physical as HQ.
  destruct (initialize_fin _ HQ no_ratios) as (i & _ & E). destruct (initialize_fin _ still_physical no_ratios) as (i' & _ & E').
  set (w := dark_hour 30). set (th := {| th_TMT1 := 0; th_ti := 18 |}).
  set (sc0 := idle_sched 20 26). assert (V0 : 0 <= sc_vent sc0) by apply Rle_refl. assert (S0 : sc_heatSP sc0 <= sc_coolSP sc0) by (cbn; lra).
  destruct (C90_defined_l _ _ sc0 w th HQ V0 S0 E) as (a1 & a2 & a3 & a4 & H0). destruct (C90_defined_l _ _ sc0 w th still_physical V0 S0 E') as (b1 & b2 & b3 & b4 & H0').
  destruct (hour_step _ _ _ _ _ _ _ _ _ HQ V0 S0 E H0) as ((f & (u & v & F) & _) & _). destruct (hour_step _ _ _ _ _ _ _ _ _ still_physical V0 S0 E' H0') as ((f' & (u' & v' & F') & _) & _).
  pose proof (hour_net_pos _ _ sc0 w th HQ V0 E) as X1. pose proof (hour_net_pos _ _ sc0 w th still_physical V0 E') as X2.
  assert (QT : forall b, sp_supplied b = sp_supplied still_office -> quiet b 30 30 (idle_sched 30 30) w).
  { intros b EB. assert (T : sp_supplied still_office 30 = 30) by (apply office_supplied; lra). unfold w.
    constructor; cbn [idle_sched sc_vent sc_intEquip sc_intLight sc_heatSP sc_coolSP dark_hour we_temp]; rewrite ?EB, ?T; try lra; try reflexivity. apply Forall_dark. }
  destruct (quiet_rc _ 30 30 _ _ 18 HQ (QT thin_office eq_refl)) as (N1 & O1 & U1). destruct (quiet_rc _ 30 30 _ _ 18 still_physical (QT still_office eq_refl)) as (N2 & O2 & U2).
  cbn [sc0 idle_sched sc_vent sc_intEquip sc_intLight sc_heatSP sc_coolSP th th_ti th_TMT1] in *.
  assert (L1 : f < 30) by (refine (free_below _ 30 _ _ _ X1 thin_slow_mass N1 _ _ _ F); lra). assert (L2 : f' < 30) by (refine (free_below _ 30 _ _ _ X2 office_slow N2 _ _ _ F'); lra).
  set (lo := (Rmax f f' + 30) / 2). assert (L : f < lo /\ f' < lo /\ lo < 30). { pose proof (Rmax_l f f'). pose proof (Rmax_r f f'). pose proof (Rmax_lub_lt _ _ _ L1 L2). unfold lo. lra. }
  clearbody lo. destruct L as (K1 & K2 & K3).
  set (sc := idle_sched lo 40). assert (V : 0 <= sc_vent sc) by apply Rle_refl. assert (S : sc_heatSP sc <= sc_coolSP sc) by (cbn; lra).
  destruct (C90_defined_l _ _ sc w th HQ V S E) as (qh & qc & tm & ta & H). destruct (C90_defined_l _ _ sc w th still_physical V S E') as (qh' & qc' & tm' & ta' & H').
  exists still_office, thin_walls, (map_hinit Fin i), (map_hinit Fin i'), sc, w, th, qh, qc, tm, ta, qh', qc', tm', ta'. cbv zeta.
  split; [exact still_physical|]. split; [exact thin_physical|]. split; [exact thin_slow_mass|]. split; [exact office_sources|]. split; [exact still_daylit|]. split; [exact still_recovers|].
  split; [exact thin_poorer|]. split; [exact E|]. split; [exact E'|]. split; [exact V|]. split; [cbn; lra|]. split; [cbn; lra|]. split; [apply dark_nonneg|]. split; [apply dark_unlit|]. split; [exact S|].
  split; [exact H|]. split; [exact H'|].
  pose proof (hour_step _ _ _ _ _ _ _ _ _ HQ V S E H) as S1. pose proof (hour_step _ _ _ _ _ _ _ _ _ still_physical V S E' H') as S2.
  pose proof (walled_net still_office thin_walls 0 0 0 w 18 18 still_physical thin_physical thin_poorer (dark_unlit _ _) eq_refl) as PN.
  cbn [sc idle_sched sc_vent sc_intEquip sc_intLight sc_heatSP sc_coolSP th th_ti th_TMT1] in *.
  refine (warm_walls _ _ _ _ _ _ _ _ _ _ _ _ _ _ _ _ _ X1 thin_slow_mass N1 _ _ X2 office_slow N2 PN _ F F' K1 K2 K3 S1 S2); try lra.
  exact thin_em.
Qed.
