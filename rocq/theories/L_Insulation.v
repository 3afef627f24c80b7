(** Better windows. *)
From Coq Require Import Reals Lra Psatz ZArith List Lia.
From Verif Require Import Base Num Xr M_Params M_Hourly M_Map S_RC S_Physical S_Network S_Year S_HourSpec S_Balance S_Compare S_YearCompare S_MonthlyCompare S_Insulation
  L_Xr L_HourlyR L_HourlySpec L_HourlyFin L_HourlyFin2 L_HourlyShape L_HourlyRun L_HourlyThm L_HourlyThm2 L_HourlyBalance L_Compare L_Compare2 L_YearCompare L_YearCompare2 L_YearClimate.
Import ListNotations.
Open Scope R_scope.

(** The second network loses less through the windows. *)
Record poorer_net (x x' : rc) : Prop := {
  pn_ve : rc_ve x = rc_ve x'; pn_is : rc_is x = rc_is x'; pn_ms : rc_ms x = rc_ms x'; pn_em : rc_em x = rc_em x';
  pn_C : rc_C x = rc_C x'; pn_out : rc_out x = rc_out x'; pn_sup : rc_sup x = rc_sup x';
  pn_w : rc_w x' <= rc_w x; pn_ia : rc_phi_ia x <= rc_phi_ia x'; pn_st : rc_phi_st x <= rc_phi_st x'; pn_m : rc_phi_m x <= rc_phi_m x' }.
(** Gains, supply air, mass and thermostat are no colder than outside. *)
Record warm_inside (x : rc) (lo m0 : R) : Prop := {
  wi_ia : 0 <= rc_phi_ia x; wi_st : 0 <= rc_phi_st x; wi_m : 0 <= rc_phi_m x;
  wi_sup : rc_out x <= rc_sup x; wi_lo : rc_out x <= lo; wi_mass : rc_out x <= m0 }.

(** With other gains. *)
Definition with_gains (x : rc) (a s m : R) : rc :=
  {| rc_ve := rc_ve x; rc_is := rc_is x; rc_w := rc_w x; rc_ms := rc_ms x; rc_em := rc_em x; rc_C := rc_C x; rc_out := rc_out x; rc_sup := rc_sup x;
     rc_phi_ia := a; rc_phi_st := s; rc_phi_m := m |}.
Lemma outside_balance x : rc_balance (with_gains x (rc_ve x * (rc_out x - rc_sup x)) 0 0) 0 (rc_out x) (rc_out x) (rc_out x) (rc_out x).
Proof. unfold rc_balance, with_gains. cbn [rc_ve rc_is rc_w rc_ms rc_em rc_C rc_out rc_sup rc_phi_ia rc_phi_st rc_phi_m]. cbv zeta. repeat split; lra. Qed.

Section Step.
Variable x : rc.
Hypothesis (HX : rc_positive x) (HC : slow_net x).
Let z := with_gains x (rc_ve x * (rc_out x - rc_sup x)) 0 0.
Lemma free_above lo m0 m s a : warm_inside x lo m0 -> rc_balance x 0 m0 m s a -> rc_out x <= a /\ rc_out x <= s.
Proof.
  intros [I1 I2 I3 I4 I5 I6] B. pose proof HX as (X1 & X2 & _).
  assert (HZ : rc_positive z) by exact HX. assert (SZ : slow_net z) by exact HC. assert (NZ : same_net z x) by (constructor; reflexivity).
  assert (0 <= rc_ve x * (rc_sup x - rc_out x)) by (apply Rmult_le_pos; lra).
  assert (G1 : 0 <= rc_phi_ia x - rc_phi_ia z) by (unfold z, with_gains; cbn [rc_phi_ia]; lra).
  assert (G2 : 0 <= rc_phi_st x - rc_phi_st z) by (unfold z, with_gains; cbn [rc_phi_st]; lra).
  assert (G3 : 0 <= rc_phi_m x - rc_phi_m z) by (unfold z, with_gains; cbn [rc_phi_m]; lra).
  pose proof (free_mono z x HZ NZ SZ _ _ _ _ _ _ _ _ (outside_balance x) B I6 G1 G2 G3) as A. split; [exact A|].
  exact (proj1 (masses_mono z x HZ NZ SZ _ _ _ _ _ _ _ _ _ _ (outside_balance x) B A I6 G2 G3)).
Qed.
Lemma held_above lo m0 q m s a : warm_inside x lo m0 -> lo <= a -> rc_balance x q m0 m s a -> rc_out x <= s /\ rc_out x <= m.
Proof.
  intros [I1 I2 I3 I4 I5 I6] L B.
  assert (HZ : rc_positive z) by exact HX. assert (SZ : slow_net z) by exact HC. assert (NZ : same_net z x) by (constructor; reflexivity).
  assert (G2 : 0 <= rc_phi_st x - rc_phi_st z) by (unfold z, with_gains; cbn [rc_phi_st]; lra).
  assert (G3 : 0 <= rc_phi_m x - rc_phi_m z) by (unfold z, with_gains; cbn [rc_phi_m]; lra).
  exact (masses_mono z x HZ NZ SZ _ _ _ _ _ _ _ _ _ _ (outside_balance x) B ltac:(lra) I6 G2 G3).
Qed.
End Step.

(** A balance of the poorer network is one of the better network with less heat in the surfaces. *)
Definition recast_windows (x x' : rc) (s : R) : rc :=
  with_gains x' (rc_phi_ia x) (rc_phi_st x + (rc_w x - rc_w x') * (rc_out x - s)) (rc_phi_m x).
Lemma recast_windows_balance x x' q m0 m s a : poorer_net x x' -> rc_balance x q m0 m s a -> rc_balance (recast_windows x x' s) q m0 m s a.
Proof.
  intros [] (A & B & C). cbv zeta in *. unfold rc_balance, recast_windows, with_gains. cbn [rc_ve rc_is rc_w rc_ms rc_em rc_C rc_out rc_sup rc_phi_ia rc_phi_st rc_phi_m]. cbv zeta.
  rewrite <- pn_ve0, <- pn_is0, <- pn_ms0, <- pn_em0, <- pn_C0, <- pn_out0, <- pn_sup0. repeat split; lra.
Qed.
Lemma recast_windows_gains x x' s : poorer_net x x' -> rc_out x <= s ->
  same_net (recast_windows x x' s) x' /\ 0 <= rc_phi_ia x' - rc_phi_ia (recast_windows x x' s) /\ 0 <= rc_phi_st x' - rc_phi_st (recast_windows x x' s) /\
  0 <= rc_phi_m x' - rc_phi_m (recast_windows x x' s).
Proof.
  intros [] H. split; [constructor; reflexivity|]. unfold recast_windows, with_gains. cbn [rc_phi_ia rc_phi_st rc_phi_m].
  assert (0 <= (rc_w x - rc_w x') * (s - rc_out x)) by (apply Rmult_le_pos; lra). repeat split; lra.
Qed.

Lemma clamp_cases lo hi f : lo <= hi -> let a := clamp lo hi f in (f <= lo /\ a = lo) \/ (lo < f < hi /\ a = f) \/ (hi <= f /\ lo < f /\ a = hi).
Proof.
  intros LH. cbv zeta. unfold clamp. destruct (Rle_lt_dec f lo); [left|right].
  - rewrite Rmin_right by lra. rewrite Rmax_left by lra. auto.
  - destruct (Rle_lt_dec hi f); [right; rewrite Rmin_left by lra; rewrite Rmax_right by lra; lra|left; rewrite Rmin_right by lra; rewrite Rmax_right by lra; lra].
Qed.
Lemma poorer_step x x' lo hi m0 m0' m m' a a' qh qc qh' qc' : rc_positive x -> rc_positive x' -> slow_net x -> poorer_net x x' -> lo <= hi -> m0 <= m0' -> warm_inside x lo m0 ->
  iso_step x lo hi m0 m a qh qc -> iso_step x' lo hi m0' m' a' qh' qc' -> a <= a' /\ m <= m' /\ qh' <= qh /\ qc <= qc' /\ rc_out x <= m.
Proof.
  intros HX HX' HC PN LH D WI ((f & (u & v & F) & T) & (s & B) & P1 & P2 & P3) ((f' & (u' & v' & F') & T') & (s' & B') & P1' & P2' & P3').
  assert (HC' : slow_net x') by (destruct PN; unfold slow_net in *; rewrite <- pn_ms0, <- pn_em0, <- pn_C0; exact HC).
  assert (LA : lo <= a) by (rewrite T; unfold clamp; apply Rmax_l).
  destruct (free_above x HX HC lo _ _ _ _ WI F) as [_ V1]. destruct (held_above x HX HC lo _ _ _ _ _ WI LA B) as [S1 M1].
  destruct (recast_windows_gains x x' v PN V1) as (N1 & G1 & G2 & G3). destruct (recast_windows_gains x x' s PN S1) as (N2 & J1 & J2 & J3).
  pose proof (recast_windows_balance x x' _ _ _ _ _ PN F) as F1. pose proof (recast_windows_balance x x' _ _ _ _ _ PN B) as B1.
  assert (Y1 : rc_positive (recast_windows x x' v)) by exact HX'. assert (Y2 : rc_positive (recast_windows x x' s)) by exact HX'.
  assert (Z1 : slow_net (recast_windows x x' v)) by exact HC'. assert (Z2 : slow_net (recast_windows x x' s)) by exact HC'.
  assert (K : f <= f') by exact (free_mono _ x' Y1 N1 Z1 _ _ _ _ _ _ _ _ F1 F' D G1 G2 G3).
  assert (A : a <= a') by (subst a a'; apply clamp_mono; lra). split; [exact A|].
  split; [exact (proj2 (masses_mono _ x' Y2 N2 Z2 _ _ _ _ _ _ _ _ _ _ B1 B' A D J2 J3))|].
  assert (U : f <= a -> 0 <= qh - qc) by (intros; eapply (plant_more x); eauto).
  assert (V : a <= f -> qh - qc <= 0) by (intros; eapply (plant_more x); eauto).
  assert (U' : f' <= a' -> 0 <= qh' - qc') by (intros; eapply (plant_more x'); eauto).
  assert (V' : a' <= f' -> qh' - qc' <= 0) by (intros; eapply (plant_more x'); eauto).
  assert (W : a = a' -> qh' - qc' <= qh - qc). { intros E. rewrite <- E in B'. exact (plant_less _ x' Y2 N2 Z2 _ _ _ _ _ _ _ _ _ B1 B' D J1 J2 J3). }
  pose proof (clamp_cases lo hi f LH) as T1. cbv zeta in T1. rewrite <- T in T1. pose proof (clamp_cases lo hi f' LH) as T2. cbv zeta in T2. rewrite <- T' in T2.
  rewrite <- and_assoc. split; [|exact M1].
  clear T T' F F' B B' F1 B1.
  destruct T1 as [(? & ?)|[(? & ?)|(? & ? & ?)]], T2 as [(? & ?)|[(? & ?)|(? & ? & ?)]];
    try (specialize (U ltac:(lra))); try (specialize (V ltac:(lra))); try (specialize (U' ltac:(lra))); try (specialize (V' ltac:(lra))); try (specialize (W ltac:(lra)));
    destruct P3 as [-> | ->], P3' as [-> | ->]; lra.
Qed.

(** ** The building *)
Lemma dot_le a : all_nonneg a -> forall u v, Forall2 Rle u v -> dot a u <= dot a v.
Proof.
  induction a as [|h a IH]; intros H u v F; [destruct F; cbn; lra|]. destruct F as [|x y u v L F]; [cbn; lra|].
  assert (0 <= h) by (apply H; left; reflexivity). specialize (IH (fun z I => H z (or_intror I)) u v F).
  change (dot (h :: a) (x :: u)) with (h * x + dot a u). change (dot (h :: a) (y :: v)) with (h * y + dot a v).
  assert (h * x <= h * y) by (apply Rmult_le_compat_l; assumption). lra.
Qed.
Lemma Forall2_nonneg u v : Forall2 Rle u v -> all_nonneg u -> all_nonneg v.
Proof.
  induction 1 as [|a b u v L F IH]; intros H y I; [destruct I|]. destruct I as [<- | I].
  - apply Rle_trans with a; [apply H; left; reflexivity|exact L].
  - apply IH; [|exact I]. intros t J. apply H. right. exact J.
Qed.
Lemma glazed_physical p us : physical p -> poorer_windows p us -> physical (glazed p us).
Proof.
  intros HP H. assert (L : length (st_windowU (pa_structure p)) = length us) by (clear - H; unfold poorer_windows in H; induction H; cbn; congruence). pose proof (Forall2_nonneg _ _ H (phy_windowU p HP)) as U. destruct HP. constructor; try assumption.
  change (length us = 9%nat). congruence.
Qed.
Lemma glazed_windows p us : physical p -> poorer_windows p us -> sp_windows p <= sp_windows (glazed p us).
Proof.
  intros HP H. unfold sp_windows. apply Rmult_le_compat_r; [left; apply Rinv_0_lt_compat, (phy_area p HP)|].
  exact (dot_le _ (phy_windowArea p HP) _ _ H).
Qed.

Section Nets.
Variables (p : params_t R) (us : list R).
Let q := glazed p us.
Hypothesis (HP : physical p) (HW : poorer_windows p us) (SO : sources_ok q) (DL : daylit p) (RO : recovery_ok p).
Variables (flow equip lights : R) (w : weather R).
Hypothesis (HF : 0 <= flow) (HQ : 0 <= equip) (HL : 0 <= lights) (HS : all_nonneg (we_sol w)).
Let net (b : params_t R) (ta : R) := hour_rc b flow equip lights (we_wind w) (we_temp w) (we_sol w) ta.
Lemma glazed_gains : 0 <= sp_solar q (we_sol w) /\ 0 <= sp_internal q equip lights (we_sol w).
Proof.
  split; [exact (solar_nonneg q (we_sol w) (glazed_physical p us HP HW) SO HS)|].
  change (sp_internal q equip lights (we_sol w)) with (sp_internal p equip lights (we_sol w)).
  unfold sp_internal. pose proof (lights_bounds p (we_sol w) HP DL HS) as LB. pose proof (so_elec q SO) as E. change (0 <= li_elecInternalGains (pa_lighting p)) in E.
  apply Rplus_le_le_0_compat; [exact HQ|]. apply Rmult_le_pos; [|exact E]. apply Rmult_le_pos; [lra|exact HL].
Qed.
Lemma glazed_poorer ta ta' : sp_exfiltration p flow (we_wind w) (we_temp w) ta = sp_exfiltration p flow (we_wind w) (we_temp w) ta' -> poorer_net (net q ta) (net p ta').
Proof.
  intros L. destruct glazed_gains as [G1 G2]. pose proof (glazed_windows p us HP HW) as GW. fold q in GW.
  assert (E : sp_envelope q flow (we_wind w) (we_temp w) ta = sp_envelope p flow (we_wind w) (we_temp w) ta') by (unfold sp_envelope; change (sp_exfiltration q) with (sp_exfiltration p); rewrite L; reflexivity).
  assert (T : sp_total q flow (we_wind w) (we_temp w) ta = sp_total p flow (we_wind w) (we_temp w) ta') by (unfold sp_total; rewrite E; reflexivity).
  assert (NA : 0 <= (1 - ss_phiSolFraction (pa_settings p)) * sp_solar p (we_sol w) + (1 - ss_phiIntFraction (pa_settings p)) * sp_internal p equip lights (we_sol w)).
  { pose proof (so_fint q SO) as FI. pose proof (so_fsol q SO) as FS. change (0 <= ss_phiIntFraction (pa_settings p) <= 1) in FI. change (0 <= ss_phiSolFraction (pa_settings p) <= 1) in FS.
    change (sp_solar q (we_sol w)) with (sp_solar p (we_sol w)) in G1. change (sp_internal q equip lights (we_sol w)) with (sp_internal p equip lights (we_sol w)) in G2.
    apply Rplus_le_le_0_compat; apply Rmult_le_pos; lra. }
  constructor; try reflexivity.
  - change (0.34 * sp_total q flow (we_wind w) (we_temp w) ta = 0.34 * sp_total p flow (we_wind w) (we_temp w) ta'). rewrite T. reflexivity.
  - change (sp_mixed q flow (we_wind w) (we_temp w) ta = sp_mixed p flow (we_wind w) (we_temp w) ta'). unfold sp_mixed. rewrite T, E. reflexivity.
  - exact GW.
  - apply Rle_refl.
  - change ((st_totalAreaPerFloorArea (pa_structure p) - sp_mass_area (sp_capacity p) - sp_windows q / sp_h_ms p) / st_totalAreaPerFloorArea (pa_structure p)
        * ((1 - ss_phiSolFraction (pa_settings p)) * sp_solar p (we_sol w) + (1 - ss_phiIntFraction (pa_settings p)) * sp_internal p equip lights (we_sol w))
      <= (st_totalAreaPerFloorArea (pa_structure p) - sp_mass_area (sp_capacity p) - sp_windows p / sp_h_ms p) / st_totalAreaPerFloorArea (pa_structure p)
        * ((1 - ss_phiSolFraction (pa_settings p)) * sp_solar p (we_sol w) + (1 - ss_phiIntFraction (pa_settings p)) * sp_internal p equip lights (we_sol w))).
    apply Rmult_le_compat_r; [exact NA|]. apply Rmult_le_compat_r; [left; apply Rinv_0_lt_compat, (phy_tapfa p HP)|].
    assert (sp_windows p / sp_h_ms p <= sp_windows q / sp_h_ms p).
    { apply Rmult_le_compat_r; [|exact GW]. left. apply Rinv_0_lt_compat. unfold sp_h_ms. pose proof (phy_hci p HP). pose proof (phy_hri p HP). lra. }
    lra.
  - apply Rle_refl.
Qed.
Lemma glazed_warm ta lo m0 : cold_outside w m0 lo -> warm_inside (net q ta) lo m0.
Proof.
  intros (C1 & C2 & C3). destruct glazed_gains as [G1 G2]. pose proof (so_fint q SO) as FI. pose proof (so_fsol q SO) as FS.
  pose proof (so_surface q SO) as SF. pose proof (phy_tapfa q (glazed_physical p us HP HW)) as TP.
  assert (AM : 0 <= sp_mass_area (sp_capacity q)).
  { unfold sp_mass_area, clamp. pose proof (Rmax_l 0 (Rmin 1 ((sp_capacity q - 165) / 95))). pose proof (Rmax_l 0 (Rmin 1 ((sp_capacity q - 260) / 110))). lra. }
  assert (IV : 0 <= / st_totalAreaPerFloorArea (pa_structure q)) by (left; apply Rinv_0_lt_compat, TP).
  assert (NA : 0 <= (1 - ss_phiSolFraction (pa_settings q)) * sp_solar q (we_sol w) + (1 - ss_phiIntFraction (pa_settings q)) * sp_internal q equip lights (we_sol w)).
  { apply Rplus_le_le_0_compat; apply Rmult_le_pos; lra. }
  constructor; unfold net, hour_rc; cbn [rc_phi_ia rc_phi_st rc_phi_m rc_out rc_sup]; try assumption.
  - apply Rplus_le_le_0_compat; apply Rmult_le_pos; lra.
  - apply Rmult_le_pos; [apply Rmult_le_pos; [lra|exact IV]|exact NA].
  - apply Rmult_le_pos; [apply Rmult_le_pos; [lra|exact IV]|exact NA].
  - apply mixed_ge; [exact (glazed_physical p us HP HW)|exact HF|lra|]. apply supplied_ge; [exact RO|lra|exact C3].
Qed.
End Nets.

(** One hour. *)
Lemma C107_hour_l p us i i' sc w th th' qh qc tm ta qh' qc' tm' ta' : let q := glazed p us in
  physical p -> mass_slow p -> sources_ok q -> daylit p -> recovery_ok p -> poorer_windows p us ->
  initialize (map_params Fin q) no_ratios = Ok i -> initialize (map_params Fin p) no_ratios = Ok i' ->
  0 <= sc_vent sc -> 0 <= sc_intEquip sc -> 0 <= sc_intLight sc -> all_nonneg (we_sol w) -> sc_heatSP sc <= sc_coolSP sc ->
  cold_outside w (th_TMT1 th) (sc_heatSP sc) -> th_TMT1 th <= th_TMT1 th' -> th_ti th = th_ti th' ->
  hour_gives q i sc w th qh qc tm ta -> hour_gives p i' sc w th' qh' qc' tm' ta' ->
  ta <= ta' /\ tm <= tm' /\ qh' <= qh /\ qc <= qc'.
Proof.
  intros q HP HM SO DL RO HW HI HI' HV HE HL HS LH CO D A H H'. pose proof (glazed_physical p us HP HW) as HQ. fold q in HQ.
  pose proof (hour_step q i sc w th qh qc tm ta HQ HV LH HI H) as S. pose proof (hour_step p i' sc w th' qh' qc' tm' ta' HP HV LH HI' H') as S'.
  pose proof (hour_net_pos q i sc w th HQ HV HI) as X. pose proof (hour_net_pos p i' sc w th' HP HV HI') as X'.
  pose proof (glazed_poorer p us HP HW SO DL (sc_vent sc) (sc_intEquip sc) (sc_intLight sc) w HE HL HS (th_ti th) (th_ti th') ltac:(rewrite A; reflexivity)) as PN.
  pose proof (glazed_warm p us HP HW SO DL RO (sc_vent sc) (sc_intEquip sc) (sc_intLight sc) w HV HE HL HS (th_ti th) _ _ CO) as WI.
  assert (SL : slow_net (hour_rc q (sc_vent sc) (sc_intEquip sc) (sc_intLight sc) (we_wind w) (we_temp w) (we_sol w) (th_ti th))) by exact HM.
  destruct (poorer_step _ _ _ _ _ _ _ _ _ _ _ _ _ _ X X' SL PN LH D WI S S') as (K1 & K2 & K3 & K4 & _). auto.
Qed.

(** A year that never becomes warmer. *)
Section Year.
Variables (p : params_t R) (us : list R) (lo hi : R) (tt : timetable).
Let q := glazed p us.
Hypothesis (HP : physical p) (HO : ordered_setpoints p) (HM : mass_slow p) (SO : sources_ok q) (DL : daylit p) (RO : recovery_ok p) (HW : poorer_windows p us) (HE : encloses lo hi p).
Lemma glazed_hours k tm ta ws ns : iso_hours q tt k tm ta ws ns -> forall tm' ta' ns' t, iso_hours p tt k tm' ta' ws ns' -> length ns = length ns' ->
  (forall w, In w ws -> steady_leak p lo hi w /\ all_nonneg (we_sol w)) -> never_warmer t ws ->
  t <= 20 -> t <= ht_tempOcc (pa_heating p) -> t <= ht_tempUnocc (pa_heating p) -> t <= tm ->
  lo <= ta <= hi -> lo <= ta' <= hi -> tm <= tm' ->
  Forall2 (fun a b => fst b <= fst a /\ snd a <= snd b) ns ns'.
Proof.
  induction 1 as [k tm ta ws|k tm ta w ws m a qh qc ns S R IH]; intros tm' ta' ns' t H' L HS NW T1 T2 T3 T4 A A' D.
  - destruct ns'; [constructor|discriminate L].
  - inversion H' as [|k2 tm2 ta2 w2 ws2 m' a' qh' qc' ns2 S' R' EQ1 EQ2 EQ3]; subst; [discriminate L|].
    destruct (HS w (or_introl eq_refl)) as [W1 W2]. destruct NW as [NW1 NW2].
    assert (EE : 0 <= equip_at p tt k) by (unfold equip_at; destruct (occupied tt k); [exact (so_occ q SO)|exact (so_unocc q SO)]).
    assert (EL : 0 <= lights_at p tt k) by (unfold lights_at; destruct (occupied tt k); [exact (so_light q SO)|exact (so_light2 q SO)]).
    assert (FN : flow_at p tt k = 0 \/ flow_at p tt k = ve_supplyRate (pa_ventilation p)) by (unfold flow_at; destruct (open_hour tt k); auto).
    assert (CO : cold_outside w tm (heat_at p tt k)) by (unfold cold_outside, heat_at; destruct (occupied tt k); lra).
    pose proof (glazed_poorer p us HP HW SO DL (flow_at p tt k) (equip_at p tt k) (lights_at p tt k) w EE EL W2 ta ta' (W1 _ _ _ FN A A')) as PN.
    pose proof (glazed_warm p us HP HW SO DL RO (flow_at p tt k) (equip_at p tt k) (lights_at p tt k) w (flow_nonneg p tt k HP) EE EL W2 ta _ _ CO) as WI.
    pose proof (rc_at_positive q tt k w ta (glazed_physical p us HP HW)) as X. pose proof (rc_at_positive p tt k w ta' HP) as X'.
    assert (SL : slow_net (rc_at q tt k w ta)) by exact HM.
    change (iso_step (rc_at q tt k w ta) (heat_at p tt k) (cool_at p tt k) tm m a qh qc) in S.
    destruct (poorer_step _ _ _ _ _ _ _ _ _ _ _ _ _ _ X X' SL PN (setpoints_ordered p tt HO k) D WI S S') as (K1 & K2 & K3 & K4 & K5).
    change (we_temp w <= m) in K5.
    constructor; [cbn; lra|].
    exact (IH m' a' ns2 (we_temp w) R' ltac:(cbn in L; lia) (fun v Hv => HS v (or_intror Hv)) NW2 ltac:(lra) ltac:(lra) ltac:(lra) K5
      (air_enclosed p lo hi tt HO HE k _ _ _ _ _ _ S) (air_enclosed p lo hi tt HO HE k _ _ _ _ _ _ S') K2).
Qed.
End Year.
Lemma C107_year_l p us lo hi tt t ws raw raw' r r' : let q := glazed p us in
  physical p -> ordered_setpoints p -> mass_slow p -> sources_ok q -> daylit p -> recovery_ok p -> poorer_windows p us -> timetable_of p tt -> encloses lo hi p ->
  (forall w, In w ws -> steady_leak p lo hi w /\ all_nonneg (we_sol w)) -> never_warmer t ws ->
  t <= 20 -> t <= ht_tempOcc (pa_heating p) -> t <= ht_tempUnocc (pa_heating p) ->
  simulateRaw (map_params Fin q) (map (map_weather Fin) ws) no_ratios = Ok (raw, r) ->
  simulateRaw (map_params Fin p) (map (map_weather Fin) ws) no_ratios = Ok (raw', r') ->
  forall k h h', nth_error raw k = Some h -> nth_error raw' k = Some h' ->
  exists qh qc qh' qc', hr_Qneed_ht h = Fin qh /\ hr_Qneed_cl h = Fin qc /\ hr_Qneed_ht h' = Fin qh' /\ hr_Qneed_cl h' = Fin qc' /\
    qh' <= qh /\ qc <= qc'.
Proof.
  intros q HP HO HM SO DL RO HW HT HE HS NW T1 T2 T3 H H' k h h' K K'.
  destruct (C04_year_l q tt ws raw r (glazed_physical p us HP HW) HO HT H) as (ns & N & E). destruct (C04_year_l p tt ws raw' r' HP HO HT H') as (ns' & N' & E').
  assert (L : length ns = length ns').
  { pose proof (simulateRaw_length _ _ _ _ _ H). pose proof (simulateRaw_length _ _ _ _ _ H').
    apply (f_equal (@length _)) in E. apply (f_equal (@length _)) in E'. rewrite !map_length in E, E'. lia. }
  pose proof (proj1 HE) as B. pose proof (glazed_hours p us lo hi tt HP HO HM SO DL RO HW HE 0%Z 20 20 ws ns N 20 20 ns' t N' L HS NW T1 T2 T3 T1 B B (Rle_refl 20)) as F.
  apply (map_nth_error (fun h => (hr_Qneed_ht h, hr_Qneed_cl h))) in K, K'. rewrite E in K. rewrite E' in K'.
  rewrite nth_error_map in K, K'. destruct (nth_error ns k) as [a|] eqn:Ea; [|discriminate K]. destruct (nth_error ns' k) as [b|] eqn:Eb; [|discriminate K'].
  cbn in K, K'. injection K as K1 K2. injection K' as K3 K4. exists (fst a), (snd a), (fst b), (snd b).
  split; [auto|]. split; [auto|]. split; [auto|]. split; [auto|]. exact (Forall2_nth _ _ _ F k a b Ea Eb).
Qed.
