(** Better insulated walls. *)
From Coq Require Import Reals Lra Psatz ZArith List Lia.
From Verif Require Import Base Num Xr M_Params M_Hourly M_Map S_RC S_Physical S_Network S_Year S_HourSpec S_Balance S_Compare S_YearCompare S_Insulation S_Walls E_SmallOffice
  L_Xr L_HourlyR L_HourlySpec L_HourlyFin L_HourlyFin2 L_HourlyShape L_HourlyRun L_HourlyThm L_HourlyThm2 L_HourlyThm3 L_HourlyThm4 L_Office L_Office2
  L_HourlyBalance L_HourlyBalance2 L_Compare L_Compare2 L_Compare3 L_YearCompare L_YearCompare2 L_YearCompare3 L_YearClimate L_Insulation L_Insulation2 L_Recovery L_Airtight.
Import ListNotations.
Open Scope R_scope.

(** ** Networks *)
(** The first network loses more from the mass to the outside. *)
Record thin_net (x x' : rc) : Prop := {
  tn_ve : rc_ve x = rc_ve x'; tn_is : rc_is x = rc_is x'; tn_w : rc_w x = rc_w x'; tn_ms : rc_ms x = rc_ms x';
  tn_C : rc_C x = rc_C x'; tn_out : rc_out x = rc_out x'; tn_sup : rc_sup x = rc_sup x';
  tn_em : rc_em x' <= rc_em x;
  tn_ia : rc_phi_ia x = rc_phi_ia x'; tn_st : rc_phi_st x = rc_phi_st x'; tn_m : rc_phi_m x = rc_phi_m x' }.
Definition recast_mass (x x' : rc) (t : R) : rc := with_gains x' (rc_phi_ia x) (rc_phi_st x) (rc_phi_m x + (rc_em x - rc_em x') * (rc_out x - t)).
Lemma recast_mass_balance x x' q m0 m s a : thin_net x x' -> rc_balance x q m0 m s a -> rc_balance (recast_mass x x' ((m0 + m) / 2)) q m0 m s a.
Proof.
  intros [L1 L2 L3 L4 L5 L6 L7 L8 L9 L10 L11] (A & B & C). cbv zeta in *. unfold rc_balance, recast_mass, with_gains. cbn [rc_ve rc_is rc_w rc_ms rc_em rc_C rc_out rc_sup rc_phi_ia rc_phi_st rc_phi_m]. cbv zeta.
  rewrite <- L1, <- L2, <- L3, <- L4, <- L5, <- L6, <- L7. repeat split; lra.
Qed.
Lemma recast_mass_gains x x' t : thin_net x x' -> rc_out x <= t ->
  same_net (recast_mass x x' t) x' /\ 0 <= rc_phi_ia x' - rc_phi_ia (recast_mass x x' t) /\ 0 <= rc_phi_st x' - rc_phi_st (recast_mass x x' t) /\
  0 <= rc_phi_m x' - rc_phi_m (recast_mass x x' t).
Proof.
  intros [L1 L2 L3 L4 L5 L6 L7 L8 L9 L10 L11] H. split; [constructor; reflexivity|]. unfold recast_mass, with_gains. cbn [rc_phi_ia rc_phi_st rc_phi_m].
  assert (0 <= (rc_em x - rc_em x') * (t - rc_out x)) by (apply Rmult_le_pos; lra). repeat split; lra.
Qed.
Lemma thin_slow x x' : thin_net x x' -> slow_net x -> slow_net x'.
Proof. intros [L1 L2 L3 L4 L5 L6 L7 L8 L9 L10 L11] H. unfold slow_net in *. rewrite <- L4, <- L5. lra. Qed.
Lemma thin_step x x' lo hi m0 m0' m m' a a' qh qc qh' qc' : rc_positive x -> rc_positive x' -> slow_net x -> thin_net x x' -> lo <= hi -> m0 <= m0' -> warm_inside x lo m0 ->
  iso_step x lo hi m0 m a qh qc -> iso_step x' lo hi m0' m' a' qh' qc' -> a <= a' /\ m <= m' /\ qh' <= qh /\ qc <= qc' /\ rc_out x <= m.
Proof.
  intros HX HX' HC PN LH D WI ((f & (u & v & F) & T) & (s & B) & P1 & P2 & P3) ((f' & (u' & v' & F') & T') & (s' & B') & P1' & P2' & P3').
  pose proof (thin_slow _ _ PN HC) as HC'.
  assert (LA : lo <= a) by (rewrite T; unfold clamp; apply Rmax_l).
  destruct (free_above x HX HC lo _ _ _ _ WI F) as [V1 _].
  assert (WO : warm_inside x (rc_out x) m0) by (destruct WI; constructor; try assumption; apply Rle_refl).
  destruct (held_above x HX HC (rc_out x) _ _ _ _ _ WO V1 F) as [_ U1]. destruct (held_above x HX HC lo _ _ _ _ _ WI LA B) as [_ M1].
  pose proof (wi_mass _ _ _ WI) as M0.
  destruct (recast_mass_gains x x' ((m0 + u) / 2) PN ltac:(lra)) as (N1 & G1 & G2 & G3). destruct (recast_mass_gains x x' ((m0 + m) / 2) PN ltac:(lra)) as (N2 & J1 & J2 & J3).
  pose proof (recast_mass_balance x x' _ _ _ _ _ PN F) as F1. pose proof (recast_mass_balance x x' _ _ _ _ _ PN B) as B1.
  assert (Y1 : rc_positive (recast_mass x x' ((m0 + u) / 2))) by exact HX'. assert (Y2 : rc_positive (recast_mass x x' ((m0 + m) / 2))) by exact HX'.
  assert (Z1 : slow_net (recast_mass x x' ((m0 + u) / 2))) by exact HC'. assert (Z2 : slow_net (recast_mass x x' ((m0 + m) / 2))) by exact HC'.
  assert (K : f <= f') by exact (free_mono _ x' Y1 N1 Z1 _ _ _ _ _ _ _ _ F1 F' D G1 G2 G3).
  assert (A : a <= a') by (rewrite T, T'; apply clamp_mono; lra). split; [exact A|].
  split; [exact (proj2 (masses_mono _ x' Y2 N2 Z2 _ _ _ _ _ _ _ _ _ _ B1 B' A D J2 J3))|].
  assert (U : f <= a -> 0 <= qh - qc) by (intros; eapply (plant_more x); eauto).
  assert (V : a <= f -> qh - qc <= 0) by (intros; eapply (plant_more x); eauto).
  assert (U' : f' <= a' -> 0 <= qh' - qc') by (intros; eapply (plant_more x'); eauto).
  assert (V' : a' <= f' -> qh' - qc' <= 0) by (intros; eapply (plant_more x'); eauto).
  assert (W : a = a' -> qh' - qc' <= qh - qc). { intros E. rewrite <- E in B'. exact (plant_less _ x' Y2 N2 Z2 _ _ _ _ _ _ _ _ _ B1 B' D J1 J2 J3). }
  pose proof (clamp_cases lo hi f LH) as T1. cbv zeta in T1. rewrite <- T in T1. pose proof (clamp_cases lo hi f' LH) as T2. cbv zeta in T2. rewrite <- T' in T2.
  rewrite <- and_assoc. split; [|exact M1].
  clear T T' F F' B B' F1 B1 N1 N2 G1 G2 G3 J1 J2 J3 Y1 Y2 Z1 Z2.
  destruct T1 as [(? & ?)|[(? & ?)|(? & ? & ?)]], T2 as [(? & ?)|[(? & ?)|(? & ? & ?)]];
    try (specialize (U ltac:(lra))); try (specialize (V ltac:(lra))); try (specialize (U' ltac:(lra))); try (specialize (V' ltac:(lra))); try (specialize (W ltac:(lra)));
    destruct P3 as [-> | ->], P3' as [-> | ->]; lra.
Qed.

(** ** The building *)
Lemma walled_opaque p us : physical p -> poorer_walls p us -> sp_opaque p <= sp_opaque (walled p us).
Proof.
  intros HP H. unfold sp_opaque. cbn [walled pa_structure st_wallArea st_wallU st_floorArea]. apply Rmax_lub; [|apply Rmax_r]. eapply Rle_trans; [|apply Rmax_l].
  apply Rmult_le_compat_r; [left; apply Rinv_0_lt_compat, (phy_area p HP)|]. exact (dot_le _ (phy_wallArea p HP) _ _ H).
Qed.
Lemma series_mono a b c : 0 < a -> a <= b -> b < c -> a * c / (c - a) <= b * c / (c - b).
Proof.
  intros A B C. apply Rmult_le_reg_r with ((c - a) * (c - b)); [apply Rmult_lt_0_compat; lra|].
  replace (a * c / (c - a) * ((c - a) * (c - b))) with (a * c * (c - b)) by (field; lra). replace (b * c / (c - b) * ((c - a) * (c - b))) with (b * c * (c - a)) by (field; lra).
  assert (0 <= c * c * (b - a)) by (apply Rmult_le_pos; nra). nra.
Qed.
Lemma coupling p : physical p -> 0 < sp_opaque p < sp_ms p.
Proof.
  intros HP. split.
  - unfold sp_opaque. eapply Rlt_le_trans; [|apply Rmax_r]. lra.
  - eapply Rlt_le_trans; [exact (phy_coupling p HP)|]. unfold sp_ms. rewrite Rmult_comm. change (ss_hci (pa_settings p) + 1.2 * ss_hri (pa_settings p)) with (sp_h_ms p).
    apply Rmult_le_compat_l; [unfold sp_h_ms; pose proof (phy_hci p HP); pose proof (phy_hri p HP); lra|].
    unfold sp_mass_area, clamp. pose proof (Rmax_l 0 (Rmin 1 ((sp_capacity p - 165) / 95))). pose proof (Rmax_l 0 (Rmin 1 ((sp_capacity p - 260) / 110))). lra.
Qed.
Lemma walled_em p us : physical p -> physical (walled p us) -> poorer_walls p us -> sp_em p <= sp_em (walled p us).
Proof.
  intros HP HQ H. unfold sp_em. pose proof (coupling p HP) as [C1 _]. pose proof (coupling _ HQ) as [_ C2]. change (sp_ms (walled p us)) with (sp_ms p) in *.
  apply series_mono; [exact C1|apply walled_opaque; assumption|exact C2].
Qed.
Lemma map_ext_seq (f g : nat -> R) n : (forall k, f k = g k) -> Rsum (map f (seq 0 n)) = Rsum (map g (seq 0 n)).
Proof. intros H. f_equal. apply map_ext. exact H. Qed.
Lemma walled_solar p us w : unlit_walls p w -> sp_solar (walled p us) (we_sol w) = sp_solar p (we_sol w).
Proof.
  intros H. unfold sp_solar. apply map_ext_seq. intros k. change (sp_shade (walled p us)) with (sp_shade p). unfold sp_aperture.
  cbn [walled pa_structure st_wallArea st_wallU st_floorArea st_wallAbsorption st_R_se st_windowArea st_windowSHGC st_windowSCF]. specialize (H k). revert H.
  generalize (sp_shade p (nth k (we_sol w) 0)). generalize (nth k (we_sol w) 0). intros g sh. generalize (nth k (st_wallAbsorption (pa_structure p)) 0). intros ab H. unfold Rdiv.
  generalize (/ st_floorArea (pa_structure p)). intros A. generalize (nth k (st_wallArea (pa_structure p)) 0) (nth k us 0) (nth k (st_wallU (pa_structure p)) 0) (st_R_se (pa_structure p))
    (nth k (st_windowArea (pa_structure p)) 0) (nth k (st_windowSHGC (pa_structure p)) 0) (nth k (st_windowSCF (pa_structure p)) 0). intros wa u1 u2 rs wi f1 f2.
  assert (E : forall u, g * ((wa * (ab * u * rs) + wi * f1) * A + ((wa * (ab * u * rs) + wi * f2) * A - (wa * (ab * u * rs) + wi * f1) * A) * sh) =
    ab * g * (wa * u * rs * A) + g * (wi * f1 * A + (wi * f2 * A - wi * f1 * A) * sh)) by (intros u; ring).
  rewrite !E, H. ring.
Qed.
Lemma walled_net p us flow equip lights w ta ta' : let q := walled p us in
  let x := hour_rc q flow equip lights (we_wind w) (we_temp w) (we_sol w) ta in let x' := hour_rc p flow equip lights (we_wind w) (we_temp w) (we_sol w) ta' in
  physical p -> physical q -> poorer_walls p us -> unlit_walls p w ->
  sp_exfiltration p flow (we_wind w) (we_temp w) ta = sp_exfiltration p flow (we_wind w) (we_temp w) ta' -> thin_net x x'.
Proof.
  intros q x x' HP HQ HW HU L. pose proof (walled_solar p us w HU) as SO. fold q in SO.
  assert (E : sp_envelope q flow (we_wind w) (we_temp w) ta = sp_envelope p flow (we_wind w) (we_temp w) ta') by (unfold sp_envelope; change (sp_exfiltration q) with (sp_exfiltration p); rewrite L; reflexivity).
  assert (T : sp_total q flow (we_wind w) (we_temp w) ta = sp_total p flow (we_wind w) (we_temp w) ta') by (unfold sp_total; rewrite E; reflexivity).
  constructor; try reflexivity.
  - change (0.34 * sp_total q flow (we_wind w) (we_temp w) ta = 0.34 * sp_total p flow (we_wind w) (we_temp w) ta'). rewrite T. reflexivity.
  - change (sp_mixed q flow (we_wind w) (we_temp w) ta = sp_mixed p flow (we_wind w) (we_temp w) ta'). unfold sp_mixed. rewrite T, E. reflexivity.
  - exact (walled_em p us HP HQ HW).
  - unfold x, x', hour_rc. cbn [rc_phi_ia]. rewrite SO. reflexivity.
  - unfold x, x', hour_rc. cbn [rc_phi_st]. rewrite SO. reflexivity.
  - unfold x, x', hour_rc. cbn [rc_phi_m]. rewrite SO. reflexivity.
Qed.
Lemma walled_warm p us flow equip lights w ta lo m0 : physical (walled p us) -> sources_ok p -> daylit p -> recovery_ok p ->
  0 <= flow -> 0 <= equip -> 0 <= lights -> all_nonneg (we_sol w) -> cold_outside w m0 lo ->
  warm_inside (hour_rc (walled p us) flow equip lights (we_wind w) (we_temp w) (we_sol w) ta) lo m0.
Proof.
  intros HQ SO DL RO HF HE HL HS CO. set (q := walled p us) in *.
  assert (SQ : sources_ok q) by (destruct SO; constructor; assumption). assert (DQ : daylit q) by (destruct DL; constructor; assumption).
  pose proof (glazed_warm q (st_windowU (pa_structure q)) HQ (windows_self q) ltac:(rewrite glazed_self; exact SQ) DQ RO flow equip lights w HF HE HL HS ta lo m0 CO) as W.
  rewrite glazed_self in W. exact W.
Qed.
Lemma C111_hour_l p us i i' sc w th th' qh qc tm ta qh' qc' tm' ta' : let q := walled p us in
  physical p -> physical q -> mass_slow q -> sources_ok p -> daylit p -> recovery_ok p -> poorer_walls p us ->
  initialize (map_params Fin q) no_ratios = Ok i -> initialize (map_params Fin p) no_ratios = Ok i' ->
  0 <= sc_vent sc -> 0 <= sc_intEquip sc -> 0 <= sc_intLight sc -> all_nonneg (we_sol w) -> unlit_walls p w -> sc_heatSP sc <= sc_coolSP sc ->
  cold_outside w (th_TMT1 th) (sc_heatSP sc) -> th_TMT1 th <= th_TMT1 th' -> th_ti th = th_ti th' ->
  hour_gives q i sc w th qh qc tm ta -> hour_gives p i' sc w th' qh' qc' tm' ta' ->
  ta <= ta' /\ tm <= tm' /\ qh' <= qh /\ qc <= qc'.
Proof.
  intros q HP HQ HM SO DL RO HL HI HI' HV HE HLi HS HU LH CO D A H H'.
  pose proof (hour_step q i sc w th qh qc tm ta HQ HV LH HI H) as S. pose proof (hour_step p i' sc w th' qh' qc' tm' ta' HP HV LH HI' H') as S'.
  pose proof (hour_net_pos q i sc w th HQ HV HI) as X. pose proof (hour_net_pos p i' sc w th' HP HV HI') as X'.
  pose proof (walled_net p us (sc_vent sc) (sc_intEquip sc) (sc_intLight sc) w (th_ti th) (th_ti th') HP HQ HL HU ltac:(rewrite A; reflexivity)) as PN.
  pose proof (walled_warm p us (sc_vent sc) (sc_intEquip sc) (sc_intLight sc) w (th_ti th) _ _ HQ SO DL RO HV HE HLi HS CO) as WI.
  destruct (thin_step _ _ _ _ _ _ _ _ _ _ _ _ _ _ X X' HM PN LH D WI S S') as (K1 & K2 & K3 & K4 & _). auto.
Qed.

Section Year.
Variables (p : params_t R) (us : list R) (lo hi : R) (tt : timetable).
Let q := walled p us.
Hypothesis (HP : physical p) (HQ : physical q) (HO : ordered_setpoints p) (HM : mass_slow q) (SO : sources_ok p) (DL : daylit p) (RO : recovery_ok p) (HL : poorer_walls p us) (HE : encloses lo hi p).
Lemma walled_hours k tm ta ws ns : iso_hours q tt k tm ta ws ns -> forall tm' ta' ns' t, iso_hours p tt k tm' ta' ws ns' -> length ns = length ns' ->
  (forall w, In w ws -> steady_leak p lo hi w /\ all_nonneg (we_sol w) /\ unlit_walls p w) -> never_warmer t ws ->
  t <= 20 -> t <= ht_tempOcc (pa_heating p) -> t <= ht_tempUnocc (pa_heating p) -> t <= tm ->
  lo <= ta <= hi -> lo <= ta' <= hi -> tm <= tm' ->
  Forall2 (fun a b => fst b <= fst a /\ snd a <= snd b) ns ns'.
Proof.
  induction 1 as [k tm ta ws|k tm ta w ws m a qh qc ns S R IH]; intros tm' ta' ns' t H' L HS NW T1 T2 T3 T4 A A' D.
  - destruct ns'; [constructor|discriminate L].
  - inversion H' as [|k2 tm2 ta2 w2 ws2 m' a' qh' qc' ns2 S' R' EQ1 EQ2 EQ3]; subst; [discriminate L|].
    destruct (HS w (or_introl eq_refl)) as (W1 & W2 & W3). destruct NW as [NW1 NW2].
    assert (EE : 0 <= equip_at p tt k) by (unfold equip_at; destruct (occupied tt k); [exact (so_occ p SO)|exact (so_unocc p SO)]).
    assert (EL : 0 <= lights_at p tt k) by (unfold lights_at; destruct (occupied tt k); [exact (so_light p SO)|exact (so_light2 p SO)]).
    assert (FN : flow_at p tt k = 0 \/ flow_at p tt k = ve_supplyRate (pa_ventilation p)) by (unfold flow_at; destruct (open_hour tt k); auto).
    assert (CO : cold_outside w tm (heat_at p tt k)) by (unfold cold_outside, heat_at; destruct (occupied tt k); lra).
    pose proof (rc_at_positive q tt k w ta HQ) as X. pose proof (rc_at_positive p tt k w ta' HP) as X'.
    pose proof (walled_net p us (flow_at p tt k) (equip_at p tt k) (lights_at p tt k) w ta ta' HP HQ HL W3 (W1 _ _ _ FN A A')) as PN.
    pose proof (walled_warm p us (flow_at p tt k) (equip_at p tt k) (lights_at p tt k) w ta _ _ HQ SO DL RO (flow_nonneg p tt k HP) EE EL W2 CO) as WI.
    assert (SL : slow_net (rc_at q tt k w ta)) by exact HM.
    change (iso_step (rc_at q tt k w ta) (heat_at p tt k) (cool_at p tt k) tm m a qh qc) in S.
    destruct (thin_step _ _ _ _ _ _ _ _ _ _ _ _ _ _ X X' SL PN (setpoints_ordered p tt HO k) D WI S S') as (K1 & K2 & K3 & K4 & K5).
    change (we_temp w <= m) in K5.
    constructor; [cbn; lra|].
    exact (IH m' a' ns2 (we_temp w) R' ltac:(cbn in L; lia) (fun v Hv => HS v (or_intror Hv)) NW2 ltac:(lra) ltac:(lra) ltac:(lra) K5
      (air_enclosed p lo hi tt HO HE k _ _ _ _ _ _ S) (air_enclosed p lo hi tt HO HE k _ _ _ _ _ _ S') K2).
Qed.
End Year.
Lemma C111_year_l p us lo hi tt t ws raw raw' r r' : let q := walled p us in
  physical p -> physical q -> ordered_setpoints p -> mass_slow q -> sources_ok p -> daylit p -> recovery_ok p -> poorer_walls p us -> timetable_of p tt -> encloses lo hi p ->
  (forall w, In w ws -> steady_leak p lo hi w /\ all_nonneg (we_sol w) /\ unlit_walls p w) -> never_warmer t ws ->
  t <= 20 -> t <= ht_tempOcc (pa_heating p) -> t <= ht_tempUnocc (pa_heating p) ->
  simulateRaw (map_params Fin q) (map (map_weather Fin) ws) no_ratios = Ok (raw, r) ->
  simulateRaw (map_params Fin p) (map (map_weather Fin) ws) no_ratios = Ok (raw', r') ->
  forall k h h', nth_error raw k = Some h -> nth_error raw' k = Some h' ->
  exists qh qc qh' qc', hr_Qneed_ht h = Fin qh /\ hr_Qneed_cl h = Fin qc /\ hr_Qneed_ht h' = Fin qh' /\ hr_Qneed_cl h' = Fin qc' /\
    qh' <= qh /\ qc <= qc'.
Proof.
  intros q HP HQ HO HM SO DL RO HL HT HE HS NW T1 T2 T3 H H' k h h' K K'.
  destruct (C04_year_l q tt ws raw r HQ HO HT H) as (ns & N & E). destruct (C04_year_l p tt ws raw' r' HP HO HT H') as (ns' & N' & E').
  assert (L : length ns = length ns').
  { pose proof (simulateRaw_length _ _ _ _ _ H). pose proof (simulateRaw_length _ _ _ _ _ H').
    apply (f_equal (@length _)) in E. apply (f_equal (@length _)) in E'. rewrite !map_length in E, E'. lia. }
  pose proof (proj1 HE) as B. pose proof (walled_hours p us lo hi tt HP HQ HO HM SO DL RO HL HE 0%Z 20 20 ws ns N 20 20 ns' t N' L HS NW T1 T2 T3 T1 B B (Rle_refl 20)) as F.
  apply (map_nth_error (fun h => (hr_Qneed_ht h, hr_Qneed_cl h))) in K, K'. rewrite E in K. rewrite E' in K'.
  rewrite nth_error_map in K, K'. destruct (nth_error ns k) as [a|] eqn:Ea; [|discriminate K]. destruct (nth_error ns' k) as [b|] eqn:Eb; [|discriminate K'].
  cbn in K, K'. injection K as K1 K2. injection K' as K3 K4. exists (fst a), (snd a), (fst b), (snd b).
  split; [auto|]. split; [auto|]. split; [auto|]. split; [auto|]. exact (Forall2_nth _ _ _ F k a b Ea Eb).
Qed.
