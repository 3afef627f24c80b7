(** Preheating of ventilation air. *)
From Coq Require Import Reals Lra Psatz ZArith List Lia.
From Verif Require Import Base Num Xr M_Params M_Hourly M_Map S_RC S_Physical S_Network S_Year S_HourSpec S_Balance S_Compare S_YearCompare S_Insulation S_Recovery S_Preheat E_SmallOffice
  L_Xr L_HourlyR L_HourlySpec L_HourlyFin L_HourlyFin2 L_HourlyShape L_HourlyRun L_HourlyThm L_HourlyThm2 L_HourlyThm3 L_HourlyThm4 L_Office L_Office2
  L_HourlyBalance L_HourlyBalance2 L_Compare L_Compare2 L_Compare3 L_YearCompare L_YearCompare2 L_YearCompare3 L_YearClimate L_Insulation L_Insulation2 L_Recovery.
Import ListNotations.
Open Scope R_scope.

(** ** Networks *)
Lemma heated_holds x lo hi m0 m a qh qc : rc_positive x -> slow_net x -> lo <= hi -> iso_step x lo hi m0 m a qh qc -> 0 < qh -> a = lo /\ qc = 0 /\ exists s, rc_balance x qh m0 m s lo.
Proof.
  intros HX HC LH ((f & (u & v & F) & T) & (s & B) & P1 & P2 & P3) Q.
  assert (QC : qc = 0) by (destruct P3; lra). subst qc.
  assert (A : a = lo).
  { pose proof (clamp_cases lo hi f LH) as K. cbv zeta in K. rewrite <- T in K. destruct K as [[_ K]|[K|K]]; [exact K|exfalso|exfalso];
    (assert (0 <= 0 - (qh - 0)) by (assert (qh - 0 <= 0) by (apply (plant_more x _ _ _ _ _ _ _ _ _ HX HC B F); lra); lra); lra). }
  split; [exact A|]. split; [reflexivity|]. exists s. rewrite A in B. replace (qh - 0) with qh in B by lra. exact B.
Qed.
Lemma preheat_steps x x' lo hi m0 m a qh qc m' a' qh' qc' : rc_positive x -> slow_net x -> lo <= hi -> same_conductances x x' -> rc_out x' = rc_out x ->
  rc_phi_ia x' = rc_phi_ia x -> rc_phi_st x' = rc_phi_st x -> rc_phi_m x' = rc_phi_m x ->
  iso_step x lo hi m0 m a qh qc -> iso_step x' lo hi m0 m' a' qh' qc' -> 0 < qh -> 0 < qh' ->
  qh - qh' = rc_ve x * (rc_sup x' - rc_sup x) /\ a' = a /\ m' = m /\ qc = 0 /\ qc' = 0.
Proof.
  intros HX HC LH SC O G1 G2 G3 S S' Q Q'. pose proof (recast_step x x' _ _ _ _ _ _ _ SC S') as S1.
  assert (HY : rc_positive (recast x x')) by exact HX. assert (HCY : slow_net (recast x x')) by exact HC.
  destruct (heated_holds _ _ _ _ _ _ _ _ HX HC LH S Q) as (-> & -> & s & B). destruct (heated_holds _ _ _ _ _ _ _ _ HY HCY LH S1 Q') as (-> & -> & s' & B').
  assert (J2 : rc_phi_st (recast x x') - rc_phi_st x = 0) by (unfold recast; cbn [rc_phi_st]; rewrite O, G2; ring).
  assert (J3 : rc_phi_m (recast x x') - rc_phi_m x = 0) by (unfold recast; cbn [rc_phi_m]; rewrite O, G3; ring).
  assert (J1 : rc_phi_ia (recast x x') - rc_phi_ia x = rc_ve x * (rc_sup x' - rc_sup x)) by (unfold recast; cbn [rc_phi_ia]; rewrite G1; ring).
  assert (N : same_net x (recast x x')) by (constructor; reflexivity). assert (N' : same_net (recast x x') x) by (constructor; reflexivity).
  destruct (masses_mono x _ HX N HC _ _ _ _ _ _ _ _ _ _ B B' (Rle_refl lo) (Rle_refl m0) ltac:(lra) ltac:(lra)) as [S2 M2].
  destruct (masses_mono (recast x x') x HX N' HC _ _ _ _ _ _ _ _ _ _ B' B (Rle_refl lo) (Rle_refl m0) ltac:(lra) ltac:(lra)) as [S3 M3].
  destruct (balance_diff x _ N _ _ _ _ _ _ _ _ _ _ B B') as (E1 & _). rewrite J1 in E1. replace (s' - s) with 0 in E1 by lra.
  repeat split; lra.
Qed.
(** ** The building *)
Lemma preheat_sup p t flow wind out ta : 0 < 0.34 * sp_total p flow wind out ta ->
  0.34 * sp_total p flow wind out ta * (sp_mixed (preheated p t) flow wind out ta - sp_mixed p flow wind out ta) = 0.34 * sp_supply p flow * (sp_supplied (preheated p t) out - sp_supplied p out).
Proof.
  intros H. unfold sp_mixed. change (sp_total (preheated p t) flow wind out ta) with (sp_total p flow wind out ta). change (sp_envelope (preheated p t) flow wind out ta) with (sp_envelope p flow wind out ta).
  change (sp_supply (preheated p t) flow) with (sp_supply p flow). revert H. generalize (sp_total p flow wind out ta). generalize (sp_envelope p flow wind out ta). generalize (sp_supply p flow).
  generalize (sp_supplied (preheated p t) out). generalize (sp_supplied p out). intros d d' s e n H. field. lra.
Qed.
Lemma C112_free_l p t i i' sc w th h h' T T' qh qh' : let q := preheated p t in
  physical p -> mass_slow p -> initialize (map_params Fin p) no_ratios = Ok i -> initialize (map_params Fin q) no_ratios = Ok i' ->
  0 <= sc_vent sc -> sc_heatSP sc <= sc_coolSP sc ->
  calculateHour (map_params Fin p) i (map_sched Fin sc) (map_weather Fin w) (map_thermal Fin th) = (h, T) ->
  calculateHour (map_params Fin q) i' (map_sched Fin sc) (map_weather Fin w) (map_thermal Fin th) = (h', T') ->
  hr_Qneed_ht h = Fin qh -> hr_Qneed_ht h' = Fin qh' -> 0 < qh -> 0 < qh' ->
  qh - qh' = 0.34 * sp_supply p (sc_vent sc) * (sp_supplied q (we_temp w) - sp_supplied p (we_temp w)) /\ T' = T /\
  hr_Qneed_cl h' = hr_Qneed_cl h /\ hr_illum h' = hr_illum h /\ hr_illum_ext h' = hr_illum_ext h /\ hr_pump h' = hr_pump h /\ hr_plug h' = hr_plug h /\
  hr_extEquip h' = hr_extEquip h /\ hr_dhw h' = hr_dhw h /\
  (ht_forcedAir (pa_heating p) = false -> hr_fan h' = hr_fan h).
Proof.
  intros q HP HM HI HI' HV LH H H' Q Q' P P'. pose proof (recovery_physical p (ve_heatRecoveryEfficiency (pa_ventilation p)) t HP) as HQ. fold (preheated p t) in HQ. fold q in HQ.
  assert (II : i' = i). { change (initialize (map_params Fin p) no_ratios = Ok i') in HI'. rewrite HI in HI'. injection HI' as ->. reflexivity. } subst i'.
  destruct (C04_step_l p i sc w th HP HV LH HI) as (tm & ta & a1 & qc & h1 & E & E1 & E2 & IS). rewrite H in E. injection E as <- ->. rewrite Q in E1. injection E1 as <-.
  destruct (C04_step_l q i sc w th HQ HV LH HI') as (tm' & ta' & a1' & qc' & h1' & E & E1' & E2' & IS'). rewrite H' in E. injection E as <- ->. rewrite Q' in E1'. injection E1' as <-.
  pose proof (hour_net_pos p i sc w th HP HV HI) as X.
  set (nx := hour_rc p (sc_vent sc) (sc_intEquip sc) (sc_intLight sc) (we_wind w) (we_temp w) (we_sol w) (th_ti th)) in *.
  set (nq := hour_rc q (sc_vent sc) (sc_intEquip sc) (sc_intLight sc) (we_wind w) (we_temp w) (we_sol w) (th_ti th)) in *.
  destruct (preheat_steps nx nq _ _ _ _ _ _ _ _ _ _ _ X HM LH (conj eq_refl (conj eq_refl (conj eq_refl (conj eq_refl (conj eq_refl eq_refl))))) eq_refl eq_refl eq_refl eq_refl IS IS' P P') as (K1 & K2 & K3 & K4 & K5).
  split. { rewrite K1. apply (preheat_sup p t). exact (proj1 X). }
  split; [rewrite K2, K3; reflexivity|]. assert (C : hr_Qneed_cl h' = hr_Qneed_cl h) by (rewrite E2, E2', K4, K5; reflexivity). split; [exact C|].
  assert (Z0 : forall g : R, 0 < g -> (Fin g >? zn 0) = true) by (intros g Hg; rewrite zn_fin, lt_fin; apply Rltb_true; num; lra).
  assert (Z1 : (Fin 0 >? zn 0) = false) by (rewrite zn_fin, lt_fin; apply Rltb_false; num; lra).
  assert (A : h = fst (calculateHour (map_params Fin p) i (map_sched Fin sc) (map_weather Fin w) (map_thermal Fin th))) by (rewrite H; reflexivity).
  assert (A' : h' = fst (calculateHour (map_params Fin q) i (map_sched Fin sc) (map_weather Fin w) (map_thermal Fin th))) by (rewrite H'; reflexivity).
  split; [rewrite A, A'; reflexivity|]. split; [rewrite A, A'; reflexivity|]. split.
  { transitivity (pumpEnergy (map_params Fin q) (hr_Qneed_ht h') (hr_Qneed_cl h')); [rewrite A'; reflexivity|]. transitivity (pumpEnergy (map_params Fin p) (hr_Qneed_ht h) (hr_Qneed_cl h)); [|rewrite A; reflexivity].
    unfold pumpEnergy. rewrite Q, Q', E2, E2', K4, K5, Z1, !Z0 by assumption. reflexivity. }
  split; [rewrite A, A'; reflexivity|]. split; [rewrite A, A'; reflexivity|]. split; [rewrite A, A'; reflexivity|].
  intros FA. transitivity (fanEnergy (map_params Fin q) (ventFlow (map_params Fin q) (map_sched Fin sc)) (Fin (th_ti th)) (hr_Qneed_ht h') (hr_Qneed_cl h')); [rewrite A'; reflexivity|].
  transitivity (fanEnergy (map_params Fin p) (ventFlow (map_params Fin p) (map_sched Fin sc)) (Fin (th_ti th)) (hr_Qneed_ht h) (hr_Qneed_cl h)); [|rewrite A; reflexivity].
  rewrite C. unfold fanEnergy. change (ht_forcedAir (pa_heating (map_params Fin q))) with (ht_forcedAir (pa_heating p)). change (ht_forcedAir (pa_heating (map_params Fin p))) with (ht_forcedAir (pa_heating p)).
  rewrite FA. reflexivity.
Qed.
Lemma fan_formula p v ti qh qc : fan_defined p ti -> fanEnergy (map_params Fin p) (Fin v) (Fin ti) (Fin qh) (Fin qc) =
    Fin (Rmax ((if ht_forcedAir (pa_heating p) then qh / fan_den_ht p ti else 0) + (if cl_forcedAir (pa_cooling p) then qc / fan_den_cl p ti else 0)) v
         * ve_fanPower (pa_ventilation p) * 1000 / 3600).
Proof.
  intros [D1 D2]. unfold fanEnergy.
  cbn [map_params map_heating map_cooling map_phys map_ventilation pa_heating pa_cooling pa_phys pa_ventilation ht_tempOcc ht_dT_supp
    cl_tempOcc cl_dT_supp ph_rhoCpAir ht_forcedAir cl_forcedAir ve_fanPower].
  rewrite dblmin_fin. fin.
  rewrite (div_fin qh) by exact D1. rewrite (div_fin qc) by exact D2.
  rewrite !if_fin. fin. rewrite div_fin by (num; lra). f_equal. rewrite nmax_R.
  num. replace (0/1) with 0 by lra. replace (1000/1) with 1000 by lra. replace (3600/1) with 3600 by lra. reflexivity.
Qed.
Lemma fan_less p v ti qh qh' qc : fan_defined p ti -> 0 < fan_den_ht p ti -> 0 <= ve_fanPower (pa_ventilation p) -> qh' <= qh ->
  at_most (fanEnergy (map_params Fin p) (Fin v) (Fin ti) (Fin qh') (Fin qc)) (fanEnergy (map_params Fin p) (Fin v) (Fin ti) (Fin qh) (Fin qc)).
Proof.
  intros D P F L. rewrite !fan_formula by exact D. do 2 eexists. split; [reflexivity|]. split; [reflexivity|].
  assert (K : (if ht_forcedAir (pa_heating p) then qh' / fan_den_ht p ti else 0) <= (if ht_forcedAir (pa_heating p) then qh / fan_den_ht p ti else 0)).
  { destruct (ht_forcedAir (pa_heating p)); [|lra]. apply Rmult_le_compat_r; [left; apply Rinv_0_lt_compat; exact P|exact L]. }
  revert K. generalize (if ht_forcedAir (pa_heating p) then qh' / fan_den_ht p ti else 0). generalize (if ht_forcedAir (pa_heating p) then qh / fan_den_ht p ti else 0).
  generalize (if cl_forcedAir (pa_cooling p) then qc / fan_den_cl p ti else 0). intros c a b K.
  assert (Rmax (b + c) v <= Rmax (a + c) v) by (apply Rle_max_compat_r; lra).
  assert (Rmax (b + c) v * ve_fanPower (pa_ventilation p) <= Rmax (a + c) v * ve_fanPower (pa_ventilation p)) by (apply Rmult_le_compat_r; lra). lra.
Qed.
Lemma fan_same p t v ti a b : fanEnergy (map_params Fin (preheated p t)) v ti a b = fanEnergy (map_params Fin p) v ti a b.
Proof. reflexivity. Qed.
Lemma vent_same p t sc : ventFlow (map_params Fin (preheated p t)) sc = ventFlow (map_params Fin p) sc.
Proof. reflexivity. Qed.
Lemma fan_of p i sc w th h T : calculateHour p i sc w th = (h, T) -> hr_fan h = fanEnergy p (ventFlow p sc) (th_ti th) (hr_Qneed_ht h) (hr_Qneed_cl h).
Proof. intros H. change h with (fst (h, T)). rewrite <- H. reflexivity. Qed.
(** Warmer supplied air in two heated hours: less heating, and no other use is larger. *)
Lemma C112_free2_l p t i i' sc w th h h' T T' qh qh' : let q := preheated p t in
  physical p -> mass_slow p -> initialize (map_params Fin p) no_ratios = Ok i -> initialize (map_params Fin q) no_ratios = Ok i' ->
  0 <= sc_vent sc -> sc_heatSP sc <= sc_coolSP sc -> fan_defined p (th_ti th) -> 0 < fan_den_ht p (th_ti th) -> 0 <= ve_fanPower (pa_ventilation p) ->
  sp_supplied p (we_temp w) <= sp_supplied q (we_temp w) ->
  calculateHour (map_params Fin p) i (map_sched Fin sc) (map_weather Fin w) (map_thermal Fin th) = (h, T) ->
  calculateHour (map_params Fin q) i' (map_sched Fin sc) (map_weather Fin w) (map_thermal Fin th) = (h', T') ->
  hr_Qneed_ht h = Fin qh -> hr_Qneed_ht h' = Fin qh' -> 0 < qh -> 0 < qh' ->
  qh - qh' = 0.34 * sp_supply p (sc_vent sc) * (sp_supplied q (we_temp w) - sp_supplied p (we_temp w)) /\ T' = T /\ Forall2 at_most (other_uses h') (other_uses h).
Proof.
  intros q HP HM HI HI' HV LH FD FP F0 SU H H' Q Q' P P'.
  destruct (C112_free_l p t i i' sc w th h h' T T' qh qh' HP HM HI HI' HV LH H H' Q Q' P P') as (K1 & K2 & E1 & E2 & E3 & E4 & E5 & E6 & E7 & _).
  split; [exact K1|]. split; [exact K2|].
  assert (II : i' = i). { change (initialize (map_params Fin p) no_ratios = Ok i') in HI'. rewrite HI in HI'. injection HI' as ->. reflexivity. } subst i'.
  assert (L : qh' <= qh).
  { pose proof (L_HourlyThm2.supply_nonneg p (sc_vent sc) HP HV) as SN. fold q in K1.
    assert (0 <= 0.34 * sp_supply p (sc_vent sc) * (sp_supplied q (we_temp w) - sp_supplied p (we_temp w))) by (apply Rmult_le_pos; lra). lra. }
  destruct (C06_step_l p no_ratios HP) as (i1 & I1 & G). change (map_ratios Fin no_ratios) with (@no_ratios xr) in I1. 
  assert (i1 = i) by (rewrite HI in I1; injection I1 as ->; reflexivity). subst i1. specialize (G sc w th HV FD). rewrite H in G. destruct G as (G & _).
  destruct G as (_ & G2 & G3 & G4 & _ & G6 & G7 & G8 & G9).
  assert (SAME : forall a b : xr, a = b -> finite b -> at_most a b) by (intros a b -> (r & ->); exists r, r; repeat split; lra).
  assert (FANS : at_most (hr_fan h') (hr_fan h)).
  { pose proof (fan_of _ _ _ _ _ _ _ H) as F1. pose proof (fan_of _ _ _ _ _ _ _ H') as F2. unfold q in F2. rewrite fan_same, vent_same in F2.
    change (th_ti (map_thermal Fin th)) with (Fin (th_ti th)) in F1, F2.
    destruct G2 as (qc & G2). rewrite F1, F2, E1, G2, Q, Q', (vent_fin p (phy_area p HP) sc). apply fan_less; assumption. }
  unfold other_uses. repeat (apply Forall2_cons; [first [exact FANS | apply SAME; assumption]|]). apply Forall2_nil.
Qed.
(** ** The office at 0 degrees, its air preheated to 10 *)
Lemma surely_heated x b lo hi m0 m a qh qc : rc_positive x -> slow_net x -> no_gains x -> rc_out x <= b -> rc_sup x <= b -> m0 <= b -> b < lo -> lo <= hi -> iso_step x lo hi m0 m a qh qc -> 0 < qh.
Proof.
  intros HX HC HG O U M L LH ((f & (u & v & F) & T) & (s & B) & P1 & P2 & P3).
  assert (K : f <= b) by exact (free_at_most x b _ _ _ _ HX HC HG O U M F).
  pose proof (clamp_cases lo hi f LH) as C. cbv zeta in C. rewrite <- T in C. destruct C as [[_ A]|[A|A]]; [|lra|lra]. subst a.
  assert (Q : 0 <= qh - qc) by (apply (plant_more x _ _ _ _ _ _ _ _ _ HX HC F B); lra).
  destruct (Rle_lt_dec qh 0) as [Z0|Z0]; [exfalso|exact Z0].
  replace (qh - qc) with 0 in B by lra. pose proof (free_at_most x b _ _ _ _ HX HC HG O U M B). lra.
Qed.
Lemma warm_supplied : sp_supplied (preheated still_office 10) 0 = 10.
Proof. unfold sp_supplied, preheated. cbn [with_recovery pa_ventilation ve_heatRecoveryEfficiency ve_preheat]. onum. rewrite Rmax_left; lra. Qed.
Lemma office_fans : fan_defined still_office 18 /\ 0 < fan_den_ht still_office 18 /\ 0 <= ve_fanPower (pa_ventilation still_office).
Proof.
  split; [apply still_fan; unfold band_state; onum; lra|]. split; [|onum; lra].
  pose proof Rdblmin_pos. unfold fan_den_ht. onum. apply Rplus_le_lt_0_compat; try assumption; apply Rmult_le_pos; try lra; apply Rmult_le_pos; lra.
Qed.
Lemma C112_case_l : let p := still_office in let q := preheated p 10 in let sc := airy_sched 20 26 in let w := dark_hour 0 in let th := {| th_TMT1 := 5; th_ti := 18 |} in
  physical p /\ mass_slow p /\ 0 <= sc_vent sc /\ sc_heatSP sc <= sc_coolSP sc /\ fan_defined p (th_ti th) /\ 0 < fan_den_ht p (th_ti th) /\ 0 <= ve_fanPower (pa_ventilation p) /\
  sp_supplied p (we_temp w) <= sp_supplied q (we_temp w) /\
  exists i i' h h' T T' qh qh', initialize (map_params Fin p) no_ratios = Ok i /\ initialize (map_params Fin q) no_ratios = Ok i' /\
  calculateHour (map_params Fin p) i (map_sched Fin sc) (map_weather Fin w) (map_thermal Fin th) = (h, T) /\
  calculateHour (map_params Fin q) i' (map_sched Fin sc) (map_weather Fin w) (map_thermal Fin th) = (h', T') /\
  hr_Qneed_ht h = Fin qh /\ hr_Qneed_ht h' = Fin qh' /\ 0 < qh /\ 0 < qh'.
Proof.
  set (p := still_office). set (q := preheated p 10). set (sc := airy_sched 20 26). set (w := dark_hour 0). set (th := {| th_TMT1 := 5; th_ti := 18 |}). cbv zeta.
  assert (HQ : physical q) by exact (recovery_physical _ _ _ still_physical).
  destruct (initialize_fin _ still_physical no_ratios) as (i & _ & E). destruct (initialize_fin _ HQ no_ratios) as (i' & _ & E').
  assert (V : 0 <= sc_vent sc) by (cbn; lra). assert (LH : sc_heatSP sc <= sc_coolSP sc) by (cbn; lra).
  assert (T1 : sp_supplied p 0 = 0) by (apply office_supplied; lra). pose proof warm_supplied as T2. fold p in T2. fold q in T2.
  destruct office_fans as (F1 & F2 & F3).
  split; [exact still_physical|]. split; [exact office_slow|]. split; [exact V|]. split; [exact LH|]. split; [exact F1|]. split; [exact F2|]. split; [exact F3|].
  split. { assert (W : sp_supplied p 0 <= sp_supplied q 0) by lra. exact W. }
  destruct (C04_step_l _ _ sc w th still_physical V LH E) as (tm & ta & qh & qc & h & A1 & A2 & A3 & S1). destruct (C04_step_l _ _ sc w th HQ V LH E') as (tm' & ta' & qh' & qc' & h' & A1' & A2' & A3' & S2).
  exists (map_hinit Fin i), (map_hinit Fin i'), h, h'. do 2 eexists. exists qh, qh'.
  split; [exact E|]. split; [exact E'|]. split; [exact A1|]. split; [exact A1'|]. split; [exact A2|]. split; [exact A2'|].
  pose proof (hour_net_pos _ _ sc w th still_physical V E) as X1. pose proof (hour_net_pos _ _ sc w th HQ V E') as X2.
  assert (Q1 : quiet p 0 10 (airy_sched 5 5) w).
  { unfold w. constructor; cbn [airy_sched sc_vent sc_intEquip sc_intLight sc_heatSP sc_coolSP dark_hour we_temp]; rewrite ?T1; try lra; try reflexivity. apply Forall_dark. }
  assert (Q2 : quiet q 0 10 (airy_sched 5 5) w).
  { unfold w. constructor; cbn [airy_sched sc_vent sc_intEquip sc_intLight sc_heatSP sc_coolSP dark_hour we_temp]; rewrite ?T2; try lra; try reflexivity. apply Forall_dark. }
  destruct (quiet_rc _ _ _ _ _ 18 still_physical Q1) as (N1 & O1 & U1). destruct (quiet_rc _ _ _ _ _ 18 HQ Q2) as (N2 & O2 & U2).
  cbn [sc airy_sched sc_vent sc_intEquip sc_intLight sc_heatSP sc_coolSP th th_ti th_TMT1] in *.
  split; [refine (surely_heated _ 10 _ _ _ _ _ _ _ X1 office_slow N1 _ _ _ _ _ S1)|refine (surely_heated _ 10 _ _ _ _ _ _ _ X2 office_slow N2 _ _ _ _ _ S2)]; lra.
Qed.
Lemma C112_refuted_l : exists p t i i' sc w th h h' T T' qh qh', let q := preheated p t in
  physical p /\ mass_slow p /\ ve_preheat (pa_ventilation p) < t /\ 0 <= sc_vent sc /\ sc_heatSP sc <= sc_coolSP sc /\
  initialize (map_params Fin p) no_ratios = Ok i /\ initialize (map_params Fin q) no_ratios = Ok i' /\
  calculateHour (map_params Fin p) i (map_sched Fin sc) (map_weather Fin w) (map_thermal Fin th) = (h, T) /\
  calculateHour (map_params Fin q) i' (map_sched Fin sc) (map_weather Fin w) (map_thermal Fin th) = (h', T') /\
  hr_Qneed_ht h = Fin qh /\ hr_Qneed_ht h' = Fin qh' /\ qh' < qh /\ Forall2 at_most (other_uses h') (other_uses h).
Proof.
  destruct C112_case_l as (A1 & A2 & A3 & A4 & A5 & A6 & A7 & A8 & i & i' & h & h' & T & T' & qh & qh' & B1 & B2 & B3 & B4 & B5 & B6 & B7 & B8).
  exists still_office, 10, i, i', (airy_sched 20 26), (dark_hour 0), {| th_TMT1 := 5; th_ti := 18 |}, h, h', T, T', qh, qh'. cbv zeta.
  destruct (C112_free2_l _ _ _ _ _ _ _ _ _ _ _ _ _ A1 A2 B1 B2 A3 A4 A5 A6 A7 A8 B3 B4 B5 B6 B7 B8) as (K1 & _ & K3).
  split; [exact A1|]. split; [exact A2|]. split; [onum; lra|]. split; [exact A3|]. split; [exact A4|]. split; [exact B1|]. split; [exact B2|]. split; [exact B3|]. split; [exact B4|]. split; [exact B5|]. split; [exact B6|].
  split; [|exact K3]. change (we_temp (dark_hour 0)) with 0 in K1. rewrite warm_supplied in K1. assert (T1 : sp_supplied still_office 0 = 0) by (apply office_supplied; lra). rewrite T1 in K1. change (sc_vent (airy_sched 20 26)) with 100 in K1.
  pose proof still_air as SA. lra.
Qed.
