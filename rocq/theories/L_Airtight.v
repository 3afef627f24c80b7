(** Air tightness. *)
From Coq Require Import Reals Lra Psatz ZArith List Lia.
From Verif Require Import Base Num Xr M_Params M_Hourly M_Map S_RC S_Physical S_Network S_Year S_HourSpec S_Balance S_Compare S_YearCompare S_Insulation S_Airtight E_SmallOffice
  L_Xr L_HourlyR L_HourlySpec L_HourlyFin L_HourlyFin2 L_HourlyShape L_HourlyRun L_HourlyThm L_HourlyThm2 L_HourlyThm3 L_HourlyThm4 L_Office L_Office2
  L_HourlyBalance L_HourlyBalance2 L_Compare L_Compare2 L_Compare3 L_YearCompare L_YearCompare2 L_YearCompare3 L_YearClimate L_Insulation L_Insulation2 L_Recovery.
Import ListNotations.
Open Scope R_scope.

(** ** Leakage *)
Lemma ratio_free L k w : L <> 0 -> L * w / (L * k + L * w) = w / (k + w).
Proof.
  intros H. replace (L * k + L * w) with (L * (k + w)) by ring. unfold Rdiv. rewrite Rinv_mult. replace (L * w * (/ L * / (k + w))) with (L * / L * (w * / (k + w))) by ring.
  rewrite Rinv_r by exact H. ring.
Qed.
Lemma leak_terms L L' k w u : 0 < L -> L <= L' -> 0 <= k -> 0 <= w -> 0 <= u ->
  Rmax 0 (Rmax (L * k) (L * w) - u * (0.5 * (L * k) + 0.667 * (L * w) / (L * k + L * w))) <=
  Rmax 0 (Rmax (L' * k) (L' * w) - u * (0.5 * (L' * k) + 0.667 * (L' * w) / (L' * k + L' * w))).
Proof.
  intros P Q HK HW HU.
  assert (E : forall l, 0 < l -> Rmax (l * k) (l * w) - u * (0.5 * (l * k) + 0.667 * (l * w) / (l * k + l * w)) = l * (Rmax k w - u * (0.5 * k)) - u * (0.667 * (w / (k + w)))).
  { intros l Hl. rewrite RmaxRmult by lra. replace (0.667 * (l * w) / (l * k + l * w)) with (0.667 * (l * w / (l * k + l * w))) by (unfold Rdiv; ring). rewrite ratio_free by lra. ring. }
  rewrite (E L P), (E L' ltac:(lra)). set (M := Rmax k w - u * (0.5 * k)).
  assert (C : 0 <= u * (0.667 * (w / (k + w)))).
  { apply Rmult_le_pos; [exact HU|]. apply Rmult_le_pos; [lra|]. destruct (Req_dec (k + w) 0) as [Z|Z]; [rewrite Z; unfold Rdiv; rewrite Rinv_0; lra|]. apply Rmult_le_pos; [exact HW|]. apply Rlt_le, Rinv_0_lt_compat. lra. }
  set (c := u * (0.667 * (w / (k + w)))) in *. destruct (Rle_lt_dec 0 M) as [HM|HM].
  - apply Rmax_lub; [apply Rmax_l|]. eapply Rle_trans; [|apply Rmax_r]. assert (L * M <= L' * M) by (apply Rmult_le_compat_r; lra). lra.
  - apply Rmax_lub; [apply Rmax_l|]. eapply Rle_trans; [|apply Rmax_l]. assert (L * M <= 0) by nra. lra.
Qed.
Lemma leak_more p n : leakier p n -> sp_leak p <= sp_leak (with_n50 p n).
Proof.
  intros [H1 H2]. unfold sp_leak. change (st_buildingHeight (pa_structure (with_n50 p n))) with (st_buildingHeight (pa_structure p)). change (ve_n50 (pa_ventilation (with_n50 p n))) with n.
  apply Rmax_lub; [apply Rmax_l|]. eapply Rle_trans; [|apply Rmax_r]. apply Rmult_le_compat_r; [exact H1|]. lra.
Qed.
Lemma exfiltration_more p n flow wind tout ti : physical p -> leakier p n -> sp_exfiltration p flow wind tout ti <= sp_exfiltration (with_n50 p n) flow wind tout ti.
Proof.
  intros HP HL. pose proof (leak_more p n HL) as K. unfold sp_exfiltration, sp_wind, sp_stack. change (sp_unbalance (with_n50 p n) flow) with (sp_unbalance p flow).
  change (ve_dCp (pa_ventilation (with_n50 p n))) with (ve_dCp (pa_ventilation p)). change (ve_hzone (pa_ventilation (with_n50 p n))) with (ve_hzone (pa_ventilation p)).
  set (W := Rpow (ve_dCp (pa_ventilation p) * (wind * wind)) 0.667). set (S := Rpow (0.5 * Rmax (1 / 10) (ve_hzone (pa_ventilation p)) * Rmax (1 / 100000) (Rabs (tout - ti))) 0.667).
  assert (HW : 0 <= W) by (apply Rpow_nonneg; apply Rmult_le_pos; [exact (phy_dCp p HP)|nra]).
  assert (HS : 0 <= S). { apply Rpow_nonneg. pose proof (Rmax_l (1 / 10) (ve_hzone (pa_ventilation p))). pose proof (Rmax_l (1 / 100000) (Rabs (tout - ti))). apply Rmult_le_pos; lra. }
  assert (P : 0 < sp_leak p) by (unfold sp_leak; pose proof (Rmax_l (1 / 1000000) (0.19 * ve_n50 (pa_ventilation p) * st_buildingHeight (pa_structure p))); lra).
  pose proof (leak_terms (sp_leak p) (sp_leak (with_n50 p n)) (0.0146 * S) (0.0769 * W) (Rabs (sp_unbalance p flow)) P K ltac:(lra) ltac:(lra) (Rabs_pos _)) as T.
  replace (0.0146 * sp_leak p * S) with (sp_leak p * (0.0146 * S)) by ring. replace (0.0769 * sp_leak p * W) with (sp_leak p * (0.0769 * W)) by ring.
  replace (0.0146 * sp_leak (with_n50 p n) * S) with (sp_leak (with_n50 p n) * (0.0146 * S)) by ring. replace (0.0769 * sp_leak (with_n50 p n) * W) with (sp_leak (with_n50 p n) * (0.0769 * W)) by ring.
  exact T.
Qed.

(** ** Networks *)
(** The first network exchanges more air with the outside. *)
Record leaky_net (x x' : rc) : Prop := {
  ln_is : rc_is x = rc_is x'; ln_w : rc_w x = rc_w x'; ln_ms : rc_ms x = rc_ms x'; ln_em : rc_em x = rc_em x';
  ln_C : rc_C x = rc_C x'; ln_out : rc_out x = rc_out x';
  ln_ve : rc_ve x' <= rc_ve x; ln_sup : rc_ve x * rc_sup x = rc_ve x' * rc_sup x' + (rc_ve x - rc_ve x') * rc_out x;
  ln_ia : rc_phi_ia x = rc_phi_ia x'; ln_st : rc_phi_st x = rc_phi_st x'; ln_m : rc_phi_m x = rc_phi_m x' }.
Definition recast_air (x x' : rc) (a : R) : rc := with_gains x' (rc_phi_ia x + (rc_ve x - rc_ve x') * (rc_out x - a)) (rc_phi_st x) (rc_phi_m x).
Lemma recast_air_balance x x' q m0 m s a : leaky_net x x' -> rc_balance x q m0 m s a -> rc_balance (recast_air x x' a) q m0 m s a.
Proof.
  intros [L1 L2 L3 L4 L5 L6 L7 L8 L9 L10 L11] (A & B & C). cbv zeta in *. unfold rc_balance, recast_air, with_gains. cbn [rc_ve rc_is rc_w rc_ms rc_em rc_C rc_out rc_sup rc_phi_ia rc_phi_st rc_phi_m]. cbv zeta.
  rewrite <- L1, <- L2, <- L3, <- L4, <- L5, <- L6. repeat split; lra.
Qed.
Lemma recast_air_gains x x' a : leaky_net x x' -> rc_out x <= a ->
  same_net (recast_air x x' a) x' /\ 0 <= rc_phi_ia x' - rc_phi_ia (recast_air x x' a) /\ 0 <= rc_phi_st x' - rc_phi_st (recast_air x x' a) /\
  0 <= rc_phi_m x' - rc_phi_m (recast_air x x' a).
Proof.
  intros [L1 L2 L3 L4 L5 L6 L7 L8 L9 L10 L11] H. split; [constructor; reflexivity|]. unfold recast_air, with_gains. cbn [rc_phi_ia rc_phi_st rc_phi_m].
  assert (0 <= (rc_ve x - rc_ve x') * (a - rc_out x)) by (apply Rmult_le_pos; lra). repeat split; lra.
Qed.
Lemma leaky_step x x' lo hi m0 m0' m m' a a' qh qc qh' qc' : rc_positive x -> rc_positive x' -> slow_net x -> leaky_net x x' -> lo <= hi -> m0 <= m0' -> warm_inside x lo m0 ->
  iso_step x lo hi m0 m a qh qc -> iso_step x' lo hi m0' m' a' qh' qc' -> a <= a' /\ m <= m' /\ qh' <= qh /\ qc <= qc' /\ rc_out x <= m.
Proof.
  intros HX HX' HC PN LH D WI ((f & (u & v & F) & T) & (s & B) & P1 & P2 & P3) ((f' & (u' & v' & F') & T') & (s' & B') & P1' & P2' & P3').
  assert (HC' : slow_net x') by (unfold slow_net in *; rewrite <- (ln_ms _ _ PN), <- (ln_em _ _ PN), <- (ln_C _ _ PN); exact HC).
  assert (LA : lo <= a) by (rewrite T; unfold clamp; apply Rmax_l).
  destruct (free_above x HX HC lo _ _ _ _ WI F) as [V1 _]. destruct (held_above x HX HC lo _ _ _ _ _ WI LA B) as [_ M1].
  assert (A1 : rc_out x <= a) by (pose proof (wi_lo _ _ _ WI); lra).
  destruct (recast_air_gains x x' f PN V1) as (N1 & G1 & G2 & G3). destruct (recast_air_gains x x' a PN A1) as (N2 & J1 & J2 & J3).
  pose proof (recast_air_balance x x' _ _ _ _ _ PN F) as F1. pose proof (recast_air_balance x x' _ _ _ _ _ PN B) as B1.
  assert (Y1 : rc_positive (recast_air x x' f)) by exact HX'. assert (Y2 : rc_positive (recast_air x x' a)) by exact HX'.
  assert (Z1 : slow_net (recast_air x x' f)) by exact HC'. assert (Z2 : slow_net (recast_air x x' a)) by exact HC'.
  assert (K : f <= f') by exact (free_mono _ x' Y1 N1 Z1 _ _ _ _ _ _ _ _ F1 F' D G1 G2 G3).
  assert (A : a <= a') by (rewrite T, T'; apply clamp_mono; lra). split; [exact A|].
  split; [exact (proj2 (masses_mono _ x' Y2 N2 Z2 _ _ _ _ _ _ _ _ _ _ B1 B' A D J2 J3))|].
  assert (U : f <= a -> 0 <= qh - qc) by (intros; eapply (plant_more x); eauto).
  assert (V : a <= f -> qh - qc <= 0) by (intros; eapply (plant_more x); eauto).
  assert (U' : f' <= a' -> 0 <= qh' - qc') by (intros; eapply (plant_more x'); eauto).
  assert (V' : a' <= f' -> qh' - qc' <= 0) by (intros; eapply (plant_more x'); eauto).
  assert (W : a = a' -> qh' - qc' <= qh - qc). { intros E. rewrite <- E in B'. exact (plant_less _ x' Y2 N2 Z2 _ _ _ _ _ _ _ _ _ B1 B' D J1 J2 J3). }
  pose proof (clamp_cases lo hi f LH) as T1. cbv zeta in T1. rewrite <- T in T1. pose proof (clamp_cases lo hi f' LH) as T2. cbv zeta in T2. rewrite <- T' in T2.
  rewrite <- and_assoc. split; [|exact M1].
  clear T T' F F' B B' F1 B1 N1 N2 G1 G2 G3 J1 J2 J3 Y1 Y2 Z1 Z2.
  destruct T1 as [(? & ?)|[(? & ?)|(? & ? & ?)]], T2 as [(? & ?)|[(? & ?)|(? & ? & ?)]];
    try (specialize (U ltac:(lra))); try (specialize (V ltac:(lra))); try (specialize (U' ltac:(lra))); try (specialize (V' ltac:(lra))); try (specialize (W ltac:(lra)));
    destruct P3 as [-> | ->], P3' as [-> | ->]; lra.
Qed.

(** ** The building *)
Lemma n50_physical p n : physical p -> physical (with_n50 p n).
Proof. intros []. constructor; assumption. Qed.
Lemma glazed_self p : glazed p (st_windowU (pa_structure p)) = p.
Proof. destruct p as [[] ? ? ? ? [] ? ? ? ?]. reflexivity. Qed.
Lemma windows_self p : poorer_windows p (st_windowU (pa_structure p)).
Proof. unfold poorer_windows. induction (st_windowU (pa_structure p)); constructor; [apply Rle_refl|assumption]. Qed.
Lemma n50_net p n flow equip lights w ta ta' : let q := with_n50 p n in
  let x := hour_rc q flow equip lights (we_wind w) (we_temp w) (we_sol w) ta in let x' := hour_rc p flow equip lights (we_wind w) (we_temp w) (we_sol w) ta' in
  physical p -> leakier p n -> rc_positive x -> rc_positive x' ->
  sp_exfiltration p flow (we_wind w) (we_temp w) ta = sp_exfiltration p flow (we_wind w) (we_temp w) ta' -> leaky_net x x'.
Proof.
  intros q x x' HP HL (VP & _) (VP' & _) E. pose proof (exfiltration_more p n flow (we_wind w) (we_temp w) ta HP HL) as K. rewrite E in K. fold q in K.
  assert (KE : sp_envelope p flow (we_wind w) (we_temp w) ta' <= sp_envelope q flow (we_wind w) (we_temp w) ta) by (unfold sp_envelope; change (sp_unbalance q) with (sp_unbalance p); lra).
  assert (TQ : sp_total q flow (we_wind w) (we_temp w) ta = sp_envelope q flow (we_wind w) (we_temp w) ta + sp_supply p flow) by reflexivity.
  assert (TP : sp_total p flow (we_wind w) (we_temp w) ta' = sp_envelope p flow (we_wind w) (we_temp w) ta' + sp_supply p flow) by reflexivity.
  change (0 < 0.34 * sp_total q flow (we_wind w) (we_temp w) ta) in VP. change (0 < 0.34 * sp_total p flow (we_wind w) (we_temp w) ta') in VP'.
  constructor; try reflexivity.
  - change (0.34 * sp_total p flow (we_wind w) (we_temp w) ta' <= 0.34 * sp_total q flow (we_wind w) (we_temp w) ta). lra.
  - change (0.34 * sp_total q flow (we_wind w) (we_temp w) ta * sp_mixed q flow (we_wind w) (we_temp w) ta =
      0.34 * sp_total p flow (we_wind w) (we_temp w) ta' * sp_mixed p flow (we_wind w) (we_temp w) ta' + (0.34 * sp_total q flow (we_wind w) (we_temp w) ta - 0.34 * sp_total p flow (we_wind w) (we_temp w) ta') * we_temp w).
    unfold sp_mixed. change (sp_supply q flow) with (sp_supply p flow). change (sp_supplied q (we_temp w)) with (sp_supplied p (we_temp w)).
    revert VP VP' TQ TP. generalize (sp_total q flow (we_wind w) (we_temp w) ta). generalize (sp_total p flow (we_wind w) (we_temp w) ta'). generalize (sp_envelope q flow (we_wind w) (we_temp w) ta).
    generalize (sp_envelope p flow (we_wind w) (we_temp w) ta'). generalize (sp_supply p flow). generalize (sp_supplied p (we_temp w)). generalize (we_temp w). intros o d s e2 e1 tp tq VP VP' TQ TP.
    assert (NQ : tq <> 0) by lra. assert (NP : tp <> 0) by lra.
    replace (0.34 * tq * ((o * e1 + d * s) / tq)) with (0.34 * (o * e1 + d * s)) by (unfold Rdiv; transitivity (0.34 * (o * e1 + d * s) * (tq * / tq)); [rewrite Rinv_r by exact NQ|]; ring).
    replace (0.34 * tp * ((o * e2 + d * s) / tp)) with (0.34 * (o * e2 + d * s)) by (unfold Rdiv; transitivity (0.34 * (o * e2 + d * s) * (tp * / tp)); [rewrite Rinv_r by exact NP|]; ring).
    rewrite TQ, TP. ring.
Qed.
Lemma n50_warm p n flow equip lights w ta lo m0 : physical p -> sources_ok p -> daylit p -> recovery_ok p ->
  0 <= flow -> 0 <= equip -> 0 <= lights -> all_nonneg (we_sol w) -> cold_outside w m0 lo ->
  warm_inside (hour_rc (with_n50 p n) flow equip lights (we_wind w) (we_temp w) (we_sol w) ta) lo m0.
Proof.
  intros HP SO DL RO HF HE HL HS CO. set (q := with_n50 p n).
  assert (SQ : sources_ok q) by (destruct SO; constructor; assumption). assert (DQ : daylit q) by (destruct DL; constructor; assumption).
  pose proof (glazed_warm q (st_windowU (pa_structure q)) (n50_physical p n HP) (windows_self q) ltac:(rewrite glazed_self; exact SQ) DQ RO flow equip lights w HF HE HL HS ta lo m0 CO) as W.
  rewrite glazed_self in W. exact W.
Qed.
Lemma C109_hour_l p n i i' sc w th th' qh qc tm ta qh' qc' tm' ta' : let q := with_n50 p n in
  physical p -> mass_slow p -> sources_ok p -> daylit p -> recovery_ok p -> leakier p n ->
  initialize (map_params Fin q) no_ratios = Ok i -> initialize (map_params Fin p) no_ratios = Ok i' ->
  0 <= sc_vent sc -> 0 <= sc_intEquip sc -> 0 <= sc_intLight sc -> all_nonneg (we_sol w) -> sc_heatSP sc <= sc_coolSP sc ->
  cold_outside w (th_TMT1 th) (sc_heatSP sc) -> th_TMT1 th <= th_TMT1 th' -> th_ti th = th_ti th' ->
  hour_gives q i sc w th qh qc tm ta -> hour_gives p i' sc w th' qh' qc' tm' ta' ->
  ta <= ta' /\ tm <= tm' /\ qh' <= qh /\ qc <= qc'.
Proof.
  intros q HP HM SO DL RO HL HI HI' HV HE HLi HS LH CO D A H H'. pose proof (n50_physical p n HP) as HQ. fold q in HQ.
  pose proof (hour_step q i sc w th qh qc tm ta HQ HV LH HI H) as S. pose proof (hour_step p i' sc w th' qh' qc' tm' ta' HP HV LH HI' H') as S'.
  pose proof (hour_net_pos q i sc w th HQ HV HI) as X. pose proof (hour_net_pos p i' sc w th' HP HV HI') as X'.
  pose proof (n50_net p n (sc_vent sc) (sc_intEquip sc) (sc_intLight sc) w (th_ti th) (th_ti th') HP HL X X' ltac:(rewrite A; reflexivity)) as PN.
  pose proof (n50_warm p n (sc_vent sc) (sc_intEquip sc) (sc_intLight sc) w (th_ti th) _ _ HP SO DL RO HV HE HLi HS CO) as WI.
  destruct (leaky_step _ _ _ _ _ _ _ _ _ _ _ _ _ _ X X' HM PN LH D WI S S') as (K1 & K2 & K3 & K4 & _). auto.
Qed.

Section Year.
Variables (p : params_t R) (n lo hi : R) (tt : timetable).
Let q := with_n50 p n.
Hypothesis (HP : physical p) (HO : ordered_setpoints p) (HM : mass_slow p) (SO : sources_ok p) (DL : daylit p) (RO : recovery_ok p) (HL : leakier p n) (HE : encloses lo hi p).
Lemma n50_hours k tm ta ws ns : iso_hours q tt k tm ta ws ns -> forall tm' ta' ns' t, iso_hours p tt k tm' ta' ws ns' -> length ns = length ns' ->
  (forall w, In w ws -> steady_leak p lo hi w /\ all_nonneg (we_sol w)) -> never_warmer t ws ->
  t <= 20 -> t <= ht_tempOcc (pa_heating p) -> t <= ht_tempUnocc (pa_heating p) -> t <= tm ->
  lo <= ta <= hi -> lo <= ta' <= hi -> tm <= tm' ->
  Forall2 (fun a b => fst b <= fst a /\ snd a <= snd b) ns ns'.
Proof.
  induction 1 as [k tm ta ws|k tm ta w ws m a qh qc ns S R IH]; intros tm' ta' ns' t H' L HS NW T1 T2 T3 T4 A A' D.
  - destruct ns'; [constructor|discriminate L].
  - inversion H' as [|k2 tm2 ta2 w2 ws2 m' a' qh' qc' ns2 S' R' EQ1 EQ2 EQ3]; subst; [discriminate L|].
    destruct (HS w (or_introl eq_refl)) as [W1 W2]. destruct NW as [NW1 NW2].
    assert (EE : 0 <= equip_at p tt k) by (unfold equip_at; destruct (occupied tt k); [exact (so_occ p SO)|exact (so_unocc p SO)]).
    assert (EL : 0 <= lights_at p tt k) by (unfold lights_at; destruct (occupied tt k); [exact (so_light p SO)|exact (so_light2 p SO)]).
    assert (FN : flow_at p tt k = 0 \/ flow_at p tt k = ve_supplyRate (pa_ventilation p)) by (unfold flow_at; destruct (open_hour tt k); auto).
    assert (CO : cold_outside w tm (heat_at p tt k)) by (unfold cold_outside, heat_at; destruct (occupied tt k); lra).
    pose proof (rc_at_positive q tt k w ta (n50_physical p n HP)) as X. pose proof (rc_at_positive p tt k w ta' HP) as X'.
    pose proof (n50_net p n (flow_at p tt k) (equip_at p tt k) (lights_at p tt k) w ta ta' HP HL X X' (W1 _ _ _ FN A A')) as PN.
    pose proof (n50_warm p n (flow_at p tt k) (equip_at p tt k) (lights_at p tt k) w ta _ _ HP SO DL RO (flow_nonneg p tt k HP) EE EL W2 CO) as WI.
    assert (SL : slow_net (rc_at q tt k w ta)) by exact HM.
    change (iso_step (rc_at q tt k w ta) (heat_at p tt k) (cool_at p tt k) tm m a qh qc) in S.
    destruct (leaky_step _ _ _ _ _ _ _ _ _ _ _ _ _ _ X X' SL PN (setpoints_ordered p tt HO k) D WI S S') as (K1 & K2 & K3 & K4 & K5).
    change (we_temp w <= m) in K5.
    constructor; [cbn; lra|].
    exact (IH m' a' ns2 (we_temp w) R' ltac:(cbn in L; lia) (fun v Hv => HS v (or_intror Hv)) NW2 ltac:(lra) ltac:(lra) ltac:(lra) K5
      (air_enclosed p lo hi tt HO HE k _ _ _ _ _ _ S) (air_enclosed p lo hi tt HO HE k _ _ _ _ _ _ S') K2).
Qed.
End Year.
Lemma C109_year_l p n lo hi tt t ws raw raw' r r' : let q := with_n50 p n in
  physical p -> ordered_setpoints p -> mass_slow p -> sources_ok p -> daylit p -> recovery_ok p -> leakier p n -> timetable_of p tt -> encloses lo hi p ->
  (forall w, In w ws -> steady_leak p lo hi w /\ all_nonneg (we_sol w)) -> never_warmer t ws ->
  t <= 20 -> t <= ht_tempOcc (pa_heating p) -> t <= ht_tempUnocc (pa_heating p) ->
  simulateRaw (map_params Fin q) (map (map_weather Fin) ws) no_ratios = Ok (raw, r) ->
  simulateRaw (map_params Fin p) (map (map_weather Fin) ws) no_ratios = Ok (raw', r') ->
  forall k h h', nth_error raw k = Some h -> nth_error raw' k = Some h' ->
  exists qh qc qh' qc', hr_Qneed_ht h = Fin qh /\ hr_Qneed_cl h = Fin qc /\ hr_Qneed_ht h' = Fin qh' /\ hr_Qneed_cl h' = Fin qc' /\
    qh' <= qh /\ qc <= qc'.
Proof.
  intros q HP HO HM SO DL RO HL HT HE HS NW T1 T2 T3 H H' k h h' K K'.
  destruct (C04_year_l q tt ws raw r (n50_physical p n HP) HO HT H) as (ns & N & E). destruct (C04_year_l p tt ws raw' r' HP HO HT H') as (ns' & N' & E').
  assert (L : length ns = length ns').
  { pose proof (simulateRaw_length _ _ _ _ _ H). pose proof (simulateRaw_length _ _ _ _ _ H').
    apply (f_equal (@length _)) in E. apply (f_equal (@length _)) in E'. rewrite !map_length in E, E'. lia. }
  pose proof (proj1 HE) as B. pose proof (n50_hours p n lo hi tt HP HO HM SO DL RO HL HE 0%Z 20 20 ws ns N 20 20 ns' t N' L HS NW T1 T2 T3 T1 B B (Rle_refl 20)) as F.
  apply (map_nth_error (fun h => (hr_Qneed_ht h, hr_Qneed_cl h))) in K, K'. rewrite E in K. rewrite E' in K'.
  rewrite nth_error_map in K, K'. destruct (nth_error ns k) as [a|] eqn:Ea; [|discriminate K]. destruct (nth_error ns' k) as [b|] eqn:Eb; [|discriminate K'].
  cbn in K, K'. injection K as K1 K2. injection K' as K3 K4. exists (fst a), (snd a), (fst b), (snd b).
  split; [auto|]. split; [auto|]. split; [auto|]. split; [auto|]. exact (Forall2_nth _ _ _ F k a b Ea Eb).
Qed.
