(** Heat recovery and preheating. *)
From Coq Require Import Reals Lra Psatz ZArith List Lia.
From Verif Require Import Base Num Xr M_Params M_Hourly M_Map S_RC S_Physical S_Network S_Year S_HourSpec S_Balance S_Compare S_YearCompare S_Insulation S_Recovery E_SmallOffice
  L_Xr L_HourlyR L_HourlySpec L_HourlyFin L_HourlyFin2 L_HourlyShape L_HourlyRun L_HourlyThm L_HourlyThm2 L_HourlyThm3 L_HourlyThm4 L_Office L_Office2
  L_HourlyBalance L_HourlyBalance2 L_Compare L_Compare2 L_Compare3 L_YearCompare L_YearCompare2 L_YearCompare3 L_YearClimate L_Insulation.
Import ListNotations.
Open Scope R_scope.

Lemma recovery_physical p e t : physical p -> physical (with_recovery p e t).
Proof. intros []. constructor; assumption. Qed.
Lemma recovery_supplied p e t out : better_recovery p e t -> out <= 20 -> sp_supplied p out <= sp_supplied (with_recovery p e t) out.
Proof.
  intros [E T] O. unfold sp_supplied. change (ve_heatRecoveryEfficiency (pa_ventilation (with_recovery p e t))) with e. change (ve_preheat (pa_ventilation (with_recovery p e t))) with t.
  apply Rmax_lub; [eapply Rle_trans; [exact T|apply Rmax_l]|]. eapply Rle_trans; [|apply Rmax_r]. nra.
Qed.
Lemma recovery_net p e t flow equip lights w ta ta' : let q := with_recovery p e t in
  let n := hour_rc p flow equip lights (we_wind w) (we_temp w) (we_sol w) ta in let n' := hour_rc q flow equip lights (we_wind w) (we_temp w) (we_sol w) ta' in
  physical p -> 0 <= flow -> better_recovery p e t -> we_temp w <= 20 -> rc_positive n ->
  sp_exfiltration p flow (we_wind w) (we_temp w) ta = sp_exfiltration p flow (we_wind w) (we_temp w) ta' ->
  same_conductances n n' /\ rc_out n <= rc_out n' /\ rc_sup n <= rc_sup n' /\ rc_phi_ia n' = rc_phi_ia n /\ rc_phi_st n' = rc_phi_st n /\ rc_phi_m n' = rc_phi_m n.
Proof.
  intros q n n' HP HF HB HO (VP & _) L.
  assert (E : sp_envelope q flow (we_wind w) (we_temp w) ta' = sp_envelope p flow (we_wind w) (we_temp w) ta) by (unfold sp_envelope; change (sp_exfiltration q) with (sp_exfiltration p); rewrite L; reflexivity).
  assert (T : sp_total q flow (we_wind w) (we_temp w) ta' = sp_total p flow (we_wind w) (we_temp w) ta) by (unfold sp_total; rewrite E; reflexivity).
  split. { repeat split; try reflexivity. change (0.34 * sp_total q flow (we_wind w) (we_temp w) ta' = 0.34 * sp_total p flow (we_wind w) (we_temp w) ta). rewrite T. reflexivity. }
  split; [apply Rle_refl|]. split.
  { change (sp_mixed p flow (we_wind w) (we_temp w) ta <= sp_mixed q flow (we_wind w) (we_temp w) ta'). unfold sp_mixed. rewrite T, E. change (sp_supply q flow) with (sp_supply p flow).
    change (0 < 0.34 * sp_total p flow (we_wind w) (we_temp w) ta) in VP.
    pose proof (L_HourlyThm2.supply_nonneg p flow HP HF) as SN. pose proof (recovery_supplied p e t (we_temp w) HB HO) as SM. fold q in SM.
    apply Rmult_le_compat_r; [apply Rlt_le, Rinv_0_lt_compat; lra|]. apply Rplus_le_compat_l. apply Rmult_le_compat_r; assumption. }
  repeat split; reflexivity.
Qed.
(** Two networks that differ in the temperature of the supplied air. *)
Lemma supplied_compare n n' lo hi m0 m m0' m' a a' qh qc qh' qc' : rc_positive n -> slow_net n -> lo <= hi ->
  same_conductances n n' /\ rc_out n <= rc_out n' /\ rc_sup n <= rc_sup n' /\ rc_phi_ia n' = rc_phi_ia n /\ rc_phi_st n' = rc_phi_st n /\ rc_phi_m n' = rc_phi_m n ->
  m0 <= m0' -> iso_step n lo hi m0 m a qh qc -> iso_step n' lo hi m0' m' a' qh' qc' -> (a <= a' /\ m <= m') /\ qh' <= qh /\ qc <= qc'.
Proof.
  intros X SL LH (C & O & U & G1 & G2 & G3) D S S'. pose proof X as (X1 & X2 & X3 & X4 & X5 & X6).
  apply (recast_step n n' _ _ _ _ _ _ _ C) in S'. set (y := recast n n') in *.
  assert (N : same_net n y) by (constructor; reflexivity).
  assert (H1 : rc_phi_ia n <= rc_phi_ia y). { unfold y, recast. cbn [rc_phi_ia]. rewrite G1. assert (0 <= rc_ve n * (rc_sup n' - rc_sup n)) by (apply Rmult_le_pos; lra). lra. }
  assert (H2 : rc_phi_st n <= rc_phi_st y). { unfold y, recast. cbn [rc_phi_st]. rewrite G2. assert (0 <= rc_w n * (rc_out n' - rc_out n)) by (apply Rmult_le_pos; lra). lra. }
  assert (H3 : rc_phi_m n <= rc_phi_m y). { unfold y, recast. cbn [rc_phi_m]. rewrite G3. assert (0 <= rc_em n * (rc_out n' - rc_out n)) by (apply Rmult_le_pos; lra). lra. }
  split; [exact (steps_warmer n y _ _ _ _ _ _ _ _ _ _ _ _ _ _ X N SL H1 H2 H3 D (Rle_refl _) (Rle_refl _) S S')|].
  exact (steps_less n y _ _ _ _ _ _ _ _ _ _ _ _ X N SL LH H1 H2 H3 D S S').
Qed.
Lemma C108_hour_l p e t i i' sc w th th' qh qc tm ta qh' qc' tm' ta' : let q := with_recovery p e t in
  physical p -> mass_slow p -> better_recovery p e t ->
  initialize (map_params Fin p) no_ratios = Ok i -> initialize (map_params Fin q) no_ratios = Ok i' ->
  0 <= sc_vent sc -> sc_heatSP sc <= sc_coolSP sc -> we_temp w <= 20 -> th_TMT1 th <= th_TMT1 th' -> th_ti th = th_ti th' ->
  hour_gives p i sc w th qh qc tm ta -> hour_gives q i' sc w th' qh' qc' tm' ta' ->
  ta <= ta' /\ tm <= tm' /\ qh' <= qh /\ qc <= qc'.
Proof.
  intros q HP HM HB HI HI' HV LH HO D A H H'. pose proof (recovery_physical p e t HP) as HQ. fold q in HQ.
  pose proof (hour_step p i sc w th qh qc tm ta HP HV LH HI H) as S. pose proof (hour_step q i' sc w th' qh' qc' tm' ta' HQ HV LH HI' H') as S'.
  pose proof (hour_net_pos p i sc w th HP HV HI) as X.
  pose proof (recovery_net p e t (sc_vent sc) (sc_intEquip sc) (sc_intLight sc) w (th_ti th) (th_ti th') HP HV HB HO X ltac:(rewrite A; reflexivity)) as N.
  destruct (supplied_compare _ _ _ _ _ _ _ _ _ _ _ _ _ _ X HM LH N D S S') as ((K1 & K2) & K3 & K4). auto.
Qed.
Section Year.
Variables (p : params_t R) (e t lo hi : R) (tt : timetable).
Let q := with_recovery p e t.
Hypothesis (HP : physical p) (HO : ordered_setpoints p) (HM : mass_slow p) (HB : better_recovery p e t) (HE : encloses lo hi p).
Lemma recovery_hours k tm ta ws ns : iso_hours p tt k tm ta ws ns -> forall tm' ta' ns', iso_hours q tt k tm' ta' ws ns' -> length ns = length ns' ->
  (forall w, In w ws -> steady_leak p lo hi w /\ we_temp w <= 20) -> lo <= ta <= hi -> lo <= ta' <= hi -> tm <= tm' ->
  Forall2 (fun a b => fst b <= fst a /\ snd a <= snd b) ns ns'.
Proof.
  induction 1 as [k tm ta ws|k tm ta w ws m a qh qc ns S R IH]; intros tm' ta' ns' H' L HS A A' D.
  - destruct ns'; [constructor|discriminate L].
  - inversion H' as [|k2 tm2 ta2 w2 ws2 m' a' qh' qc' ns2 S' R' EQ1 EQ2 EQ3]; subst; [discriminate L|].
    destruct (HS w (or_introl eq_refl)) as [W1 W2].
    assert (FN : flow_at p tt k = 0 \/ flow_at p tt k = ve_supplyRate (pa_ventilation p)) by (unfold flow_at; destruct (open_hour tt k); auto).
    pose proof (rc_at_positive p tt k w ta HP) as X.
    pose proof (recovery_net p e t (flow_at p tt k) (equip_at p tt k) (lights_at p tt k) w ta ta' HP (flow_nonneg p tt k HP) HB W2 X (W1 _ _ _ FN A A')) as N.
    assert (SL : slow_net (rc_at p tt k w ta)) by exact HM.
    change (iso_step (rc_at q tt k w ta') (heat_at p tt k) (cool_at p tt k) tm' m' a' qh' qc') in S'.
    destruct (supplied_compare _ _ _ _ _ _ _ _ _ _ _ _ _ _ X SL (setpoints_ordered p tt HO k) N D S S') as ((K1 & K2) & K3 & K4).
    constructor; [cbn; lra|].
    exact (IH m' a' ns2 R' ltac:(cbn in L; lia) (fun v Hv => HS v (or_intror Hv))
      (air_enclosed p lo hi tt HO HE k _ _ _ _ _ _ S) (air_enclosed p lo hi tt HO HE k _ _ _ _ _ _ S') K2).
Qed.
End Year.
Lemma C108_year_l p e t lo hi tt ws raw raw' r r' : let q := with_recovery p e t in
  physical p -> ordered_setpoints p -> mass_slow p -> better_recovery p e t -> timetable_of p tt -> encloses lo hi p ->
  (forall w, In w ws -> steady_leak p lo hi w /\ we_temp w <= 20) ->
  simulateRaw (map_params Fin p) (map (map_weather Fin) ws) no_ratios = Ok (raw, r) ->
  simulateRaw (map_params Fin q) (map (map_weather Fin) ws) no_ratios = Ok (raw', r') ->
  forall k h h', nth_error raw k = Some h -> nth_error raw' k = Some h' ->
  exists qh qc qh' qc', hr_Qneed_ht h = Fin qh /\ hr_Qneed_cl h = Fin qc /\ hr_Qneed_ht h' = Fin qh' /\ hr_Qneed_cl h' = Fin qc' /\
    qh' <= qh /\ qc <= qc'.
Proof.
  intros q HP HO HM HB HT HE HS H H' k h h' K K'.
  destruct (C04_year_l p tt ws raw r HP HO HT H) as (ns & N & E). destruct (C04_year_l q tt ws raw' r' (recovery_physical p e t HP) HO HT H') as (ns' & N' & E').
  assert (L : length ns = length ns').
  { pose proof (simulateRaw_length _ _ _ _ _ H). pose proof (simulateRaw_length _ _ _ _ _ H').
    apply (f_equal (@length _)) in E. apply (f_equal (@length _)) in E'. rewrite !map_length in E, E'. lia. }
  pose proof (proj1 HE) as B. pose proof (recovery_hours p e t lo hi tt HP HO HM HB HE 0%Z 20 20 ws ns N 20 20 ns' N' L HS B B (Rle_refl 20)) as F.
  apply (map_nth_error (fun h => (hr_Qneed_ht h, hr_Qneed_cl h))) in K, K'. rewrite E in K. rewrite E' in K'.
  rewrite nth_error_map in K, K'. destruct (nth_error ns k) as [a|] eqn:Ea; [|discriminate K]. destruct (nth_error ns' k) as [b|] eqn:Eb; [|discriminate K'].
  cbn in K, K'. injection K as K1 K2. injection K' as K3 K4. exists (fst a), (snd a), (fst b), (snd b).
  split; [auto|]. split; [auto|]. split; [auto|]. split; [auto|]. exact (Forall2_nth _ _ _ F k a b Ea Eb).
Qed.

(** ** Cases *)
Lemma recovery_runs e t : exists raw r, simulateRaw (map_params Fin (with_recovery still_office e t)) (map (map_weather Fin) windy_year) no_ratios = Ok (raw, r).
Proof.
  unfold windy_year. rewrite map_repeat. apply simulateRaw_ok.
  - apply office_ints.
  - reflexivity.
  - rewrite repeat_length. lia.
  - intros w Hw. apply repeat_spec in Hw. subst w. reflexivity.
Qed.
Lemma still_better : better_recovery still_office 0.5 10.
Proof. unfold better_recovery. onum. lra. Qed.
Lemma C108_case_l : let p := still_office in let q := with_recovery p 0.5 10 in
  physical p /\ ordered_setpoints p /\ mass_slow p /\ better_recovery p 0.5 10 /\ timetable_of p office_hours /\ encloses 18 22 p /\
  (forall w, In w windy_year -> steady_leak p 18 22 w /\ we_temp w <= 20) /\
  (exists raw r, simulateRaw (map_params Fin p) (map (map_weather Fin) windy_year) no_ratios = Ok (raw, r)) /\
  exists raw r, simulateRaw (map_params Fin q) (map (map_weather Fin) windy_year) no_ratios = Ok (raw, r).
Proof.
  cbv zeta. split; [exact still_physical|]. split; [exact still_ordered|]. split; [exact office_slow|]. split; [exact still_better|].
  split; [exact still_timetable|]. split; [unfold encloses; onum; lra|].
  split; [intros w Hw; apply repeat_spec in Hw; subst w; split; [exact windy_steady|unfold windy_hour; cbn [we_temp]; onum; lra]|].
  split; [exact (windy_runs 0 0)|exact (recovery_runs 0.5 10)].
Qed.
(** An hour of 30 degrees outside with a set-point of 31. *)
Lemma free_at_most x b m0 m s f : rc_positive x -> slow_net x -> no_gains x -> rc_out x <= b -> rc_sup x <= b -> m0 <= b -> rc_balance x 0 m0 m s f -> f <= b.
Proof.
  intros HX HC (G1 & G2 & G3) O U M B. pose proof HX as (X1 & X2 & X3 & X4 & X5 & _).
  set (y := with_gains x (rc_ve x * (b - rc_sup x)) (rc_w x * (b - rc_out x)) (rc_em x * (b - rc_out x))).
  assert (BY : rc_balance y 0 b b b b) by (unfold y, rc_balance, with_gains; cbn [rc_ve rc_is rc_w rc_ms rc_em rc_C rc_out rc_sup rc_phi_ia rc_phi_st rc_phi_m]; cbv zeta; repeat split; lra).
  assert (0 <= rc_ve x * (b - rc_sup x)) by (apply Rmult_le_pos; lra). assert (0 <= rc_w x * (b - rc_out x)) by (apply Rmult_le_pos; lra). assert (0 <= rc_em x * (b - rc_out x)) by (apply Rmult_le_pos; lra).
  assert (N : same_net x y) by (constructor; reflexivity).
  apply (free_mono x y HX N HC _ _ _ _ _ _ _ _ B BY M); unfold y, with_gains; cbn [rc_phi_ia rc_phi_st rc_phi_m]; lra.
Qed.
Lemma colder_supply x x' m a qh qc m' a' qh' qc' : rc_positive x -> slow_net x -> no_gains x -> rc_positive x' -> slow_net x' -> no_gains x' ->
  same_conductances x x' -> rc_out x' = rc_out x -> rc_out x <= 30 -> rc_sup x <= 30 -> rc_sup x' < rc_sup x ->
  iso_step x 31 32 30 m a qh qc -> iso_step x' 31 32 30 m' a' qh' qc' -> qh < qh'.
Proof.
  intros HX HC HG HX' HC' HG' SC O O1 U1 U ((f & (u & v & F) & T) & (s & B) & P1 & P2 & P3) ((f' & (u' & v' & F') & T') & (s' & B') & P1' & P2' & P3').
  assert (K : f <= 30) by (apply (free_at_most x 30 _ _ _ _ HX HC HG) in F; lra).
  assert (K' : f' <= 30) by (apply (free_at_most x' 30 _ _ _ _ HX' HC' HG') in F'; lra).
  destruct (clamp_cases 31 32 f ltac:(lra)) as [(_ & A)|[?|?]]; [|lra|lra]. destruct (clamp_cases 31 32 f' ltac:(lra)) as [(_ & A')|[?|?]]; [|lra|lra].
  rewrite A in T. rewrite A' in T'. subst a a'.
  assert (Q : 0 <= qh - qc) by (apply (plant_more x _ _ _ _ _ _ _ _ _ HX HC F B); lra).
  assert (Q' : 0 <= qh' - qc') by (apply (plant_more x' _ _ _ _ _ _ _ _ _ HX' HC' F' B'); lra).
  pose proof (recast_balance x x' _ _ _ _ _ SC B') as B1. destruct HG as (G1 & G2 & G3). destruct HG' as (G1' & G2' & G3').
  assert (J2 : rc_phi_st (recast x x') - rc_phi_st x = 0) by (unfold recast; cbn [rc_phi_st]; rewrite O, G2, G2'; ring).
  assert (J3 : rc_phi_m (recast x x') - rc_phi_m x = 0) by (unfold recast; cbn [rc_phi_m]; rewrite O, G3, G3'; ring).
  assert (J1 : rc_phi_ia (recast x x') - rc_phi_ia x = rc_ve x * (rc_sup x' - rc_sup x)) by (unfold recast; cbn [rc_phi_ia]; rewrite G1, G1'; ring).
  assert (N : same_net x (recast x x')) by (constructor; reflexivity). assert (N' : same_net (recast x x') x) by (constructor; reflexivity).
  destruct (masses_mono x _ HX N HC _ _ _ _ _ _ _ _ _ _ B B1 (Rle_refl 31) (Rle_refl 30) ltac:(lra) ltac:(lra)) as [S1 _].
  destruct (masses_mono (recast x x') x HX N' HC _ _ _ _ _ _ _ _ _ _ B1 B (Rle_refl 31) (Rle_refl 30) ltac:(lra) ltac:(lra)) as [S2 _].
  destruct (balance_diff x _ N _ _ _ _ _ _ _ _ _ _ B B1) as (E1 & _). rewrite J1 in E1. replace (s' - s) with 0 in E1 by lra.
  destruct HX as (X1 & _). assert (0 < rc_ve x * (rc_sup x - rc_sup x')) by (apply Rmult_lt_0_compat; lra).
  destruct P3 as [-> | ->], P3' as [-> | ->]; lra.
Qed.

Definition airy_sched (lo hi : R) : sched R :=
  {| sc_vent := 100; sc_extEquip := 0; sc_intEquip := 0; sc_extLight := 1; sc_intLight := 0; sc_heatSP := lo; sc_coolSP := hi |}.
Lemma half_better : better_recovery still_office 0.5 (-50).
Proof. unfold better_recovery. onum. lra. Qed.
Lemma half_supplied : sp_supplied (with_recovery still_office 0.5 (-50)) 30 = 25.
Proof. unfold sp_supplied. cbn [with_recovery pa_ventilation ve_heatRecoveryEfficiency ve_preheat]. rewrite Rmax_right; lra. Qed.
Lemma still_air : 0 < sp_supply still_office 100.
Proof. unfold sp_supply, sp_vent. apply Rmult_lt_0_compat; [onum; lra|]. pose proof (Rmax_l (1 / 100000) (ve_fanControlFactor (pa_ventilation still_office))). lra. Qed.
Lemma C108_refuted_l : exists p e t i i' sc w th qh qc tm ta qh' qc' tm' ta', let q := with_recovery p e t in
  physical p /\ mass_slow p /\ better_recovery p e t /\ e <= 1 /\
  initialize (map_params Fin p) no_ratios = Ok i /\ initialize (map_params Fin q) no_ratios = Ok i' /\
  0 <= sc_vent sc /\ sc_heatSP sc <= sc_coolSP sc /\
  hour_gives p i sc w th qh qc tm ta /\ hour_gives q i' sc w th qh' qc' tm' ta' /\ qh < qh'.
Proof.
  set (q := with_recovery still_office 0.5 (-50)). assert (HQ : physical q) by exact (recovery_physical _ _ _ still_physical).
  destruct (initialize_fin _ still_physical no_ratios) as (i & _ & E). destruct (initialize_fin _ HQ no_ratios) as (i' & _ & E').
  set (sc := airy_sched 31 32). set (w := dark_hour 30). set (th := {| th_TMT1 := 30; th_ti := 25 |}).
  assert (V : 0 <= sc_vent sc) by (cbn; lra). assert (S : sc_heatSP sc <= sc_coolSP sc) by (cbn; lra).
  destruct (C90_defined_l _ _ sc w th still_physical V S E) as (qh & qc & tm & ta & H). destruct (C90_defined_l _ _ sc w th HQ V S E') as (qh' & qc' & tm' & ta' & H').
  exists still_office, 0.5, (-50), (map_hinit Fin i), (map_hinit Fin i'), sc, w, th, qh, qc, tm, ta, qh', qc', tm', ta'. cbv zeta. fold q.
  split; [exact still_physical|]. split; [exact office_slow|]. split; [exact half_better|]. split; [lra|]. split; [exact E|]. split; [exact E'|]. split; [exact V|]. split; [exact S|].
  split; [exact H|]. split; [exact H'|].
  pose proof (hour_step _ _ _ _ _ _ _ _ _ still_physical V S E H) as S1. pose proof (hour_step _ _ _ _ _ _ _ _ _ HQ V S E' H') as S2.
  pose proof (hour_net_pos _ _ sc w th still_physical V E) as X1. pose proof (hour_net_pos _ _ sc w th HQ V E') as X2.
  assert (T1 : sp_supplied still_office 30 = 30) by (apply office_supplied; lra). pose proof half_supplied as T2. fold q in T2.
  assert (Q1 : quiet still_office 30 30 (airy_sched 30 30) w).
  { unfold w. constructor; cbn [airy_sched sc_vent sc_intEquip sc_intLight sc_heatSP sc_coolSP dark_hour we_temp]; rewrite ?T1; try lra; try reflexivity. apply Forall_dark. }
  assert (Q2 : quiet q 25 30 (airy_sched 30 30) w).
  { unfold w. constructor; cbn [airy_sched sc_vent sc_intEquip sc_intLight sc_heatSP sc_coolSP dark_hour we_temp]; rewrite ?T2; try lra; try reflexivity. apply Forall_dark. }
  destruct (quiet_rc _ _ _ _ _ 25 still_physical Q1) as (N1 & O1 & U1). destruct (quiet_rc _ _ _ _ _ 25 HQ Q2) as (N2 & O2 & U2).
  cbn [sc airy_sched sc_vent sc_intEquip sc_intLight sc_heatSP sc_coolSP th th_ti th_TMT1] in *.
  refine (colder_supply _ _ _ _ _ _ _ _ _ _ X1 office_slow N1 X2 office_slow N2 _ eq_refl _ _ _ S1 S2); [repeat split; reflexivity|lra|lra|].
  change (sp_mixed q 100 2 30 25 < sp_mixed still_office 100 2 30 25). unfold sp_mixed. rewrite T1, T2.
  change (sp_total q) with (sp_total still_office). change (sp_envelope q) with (sp_envelope still_office). change (sp_supply q) with (sp_supply still_office).
  destruct X1 as (VP & _). change (0 < 0.34 * sp_total still_office 100 2 30 25) in VP. pose proof still_air as SA.
  apply Rmult_lt_compat_r; [apply Rinv_0_lt_compat; lra|]. lra.
Qed.
Lemma C108_hour_case_l : let p := still_office in let q := with_recovery p 0.5 10 in
  physical p /\ mass_slow p /\ better_recovery p 0.5 10 /\ we_temp (dark_hour 0) <= 20 /\
  exists i i', initialize (map_params Fin p) no_ratios = Ok i /\ initialize (map_params Fin q) no_ratios = Ok i' /\
  (exists qh qc tm ta, hour_gives p i (airy_sched 20 26) (dark_hour 0) {| th_TMT1 := 15; th_ti := 18 |} qh qc tm ta) /\
  exists qh qc tm ta, hour_gives q i' (airy_sched 20 26) (dark_hour 0) {| th_TMT1 := 15; th_ti := 18 |} qh qc tm ta.
Proof.
  cbv zeta. split; [exact still_physical|]. split; [exact office_slow|]. split; [exact still_better|]. split; [cbn; lra|].
  pose proof (recovery_physical still_office 0.5 10 still_physical) as HQ.
  destruct (initialize_fin _ still_physical no_ratios) as (i & _ & E). destruct (initialize_fin _ HQ no_ratios) as (i' & _ & E').
  exists (map_hinit Fin i), (map_hinit Fin i'). split; [exact E|]. split; [exact E'|].
  split; apply C90_defined_l; try assumption; try exact still_physical; cbn; lra.
Qed.
