(** Sunnier years. *)
From Coq Require Import Reals Lra Psatz ZArith List Lia.
From Verif Require Import Base Num Xr M_Params M_Hourly M_Map S_RC S_Physical S_Network S_Year S_HourSpec S_Balance S_Compare S_YearCompare S_YearSun
  L_Xr L_HourlyR L_HourlySpec L_HourlyFin L_HourlyFin2 L_HourlyShape L_HourlyRun L_HourlyThm L_HourlyThm2 L_HourlyBalance L_Compare L_Compare2 L_YearCompare L_YearCompare2 L_YearClimate.
Import ListNotations.
Open Scope R_scope.

Lemma Rsum_mono {A} (f g : A -> R) l : (forall x, In x l -> f x <= g x) -> Rsum (map f l) <= Rsum (map g l).
Proof.
  induction l as [|a l IH]; intros H; [apply Rle_refl|]. change (f a + Rsum (map f l) <= g a + Rsum (map g l)).
  apply Rplus_le_compat; [apply H; left; reflexivity|apply IH; intros x I; apply H; right; exact I].
Qed.
Lemma shade_mono p g g' : physical p -> sources_ok p -> 0 <= g <= g' -> 0 <= sp_shade p g <= sp_shade p g'.
Proof.
  intros HP HS G. unfold sp_shade. pose proof (phy_irr p HP) as I. pose proof (so_shade p HS) as F.
  assert (K : 0 <= st_shadingFactorAtMaxUse (pa_structure p) / st_irradianceForMaxShadingUse (pa_structure p)) by (apply Rmult_le_pos; [lra|apply Rlt_le, Rinv_0_lt_compat; lra]).
  assert (M : 0 <= Rmin g (st_irradianceForMaxShadingUse (pa_structure p)) <= Rmin g' (st_irradianceForMaxShadingUse (pa_structure p))).
  { split; [apply Rmin_glb; lra|]. apply Rmin_glb; [eapply Rle_trans; [apply Rmin_l|lra]|apply Rmin_r]. }
  split; [apply Rmult_le_pos; lra|apply Rmult_le_compat_l; lra].
Qed.
Lemma shaded_mono p k g g' : physical p -> sources_ok p -> shades_admit p -> 0 <= g <= g' ->
  0 <= (sp_aperture p (st_windowSCF (pa_structure p)) k - sp_aperture p (st_windowSHGC (pa_structure p)) k) * sp_shade p g <=
  (sp_aperture p (st_windowSCF (pa_structure p)) k - sp_aperture p (st_windowSHGC (pa_structure p)) k) * sp_shade p g'.
Proof.
  intros HP HS [Z0|AD] G.
  - assert (E : forall x, sp_shade p x = 0) by (intros x; unfold sp_shade; rewrite Z0; unfold Rdiv; ring). rewrite !E. lra.
  - pose proof (shade_mono p g g' HP HS G) as S.
    assert (D : 0 <= sp_aperture p (st_windowSCF (pa_structure p)) k - sp_aperture p (st_windowSHGC (pa_structure p)) k).
    { unfold sp_aperture. pose proof (nth_nonneg _ k (phy_windowArea p HP)) as W. specialize (AD k). pose proof (phy_area p HP) as PA.
      assert (J : 0 <= nth k (st_windowArea (pa_structure p)) 0 * (nth k (st_windowSCF (pa_structure p)) 0 - nth k (st_windowSHGC (pa_structure p)) 0)) by (apply Rmult_le_pos; lra).
      unfold Rdiv. rewrite <- Rmult_minus_distr_r. apply Rmult_le_pos; [lra|apply Rlt_le, Rinv_0_lt_compat, PA]. }
    split; [apply Rmult_le_pos; lra|apply Rmult_le_compat_l; lra].
Qed.
Lemma C115_sun_l p w w' : physical p -> sources_ok p -> shades_admit p -> sunnier_hour w w' -> sp_solar p (we_sol w) <= sp_solar p (we_sol w').
Proof.
  intros HP HS HA (_ & _ & W). unfold sp_solar. apply Rsum_mono. intros k _. specialize (W k).
  pose proof (aperture_nonneg p _ k HP HS (so_shgc p HS)) as A1. pose proof (shaded_mono p k _ _ HP HS HA W) as A2.
  apply Rmult_le_compat; try lra.
Qed.

Section Sunny.
Variables (p : params_t R) (lo hi : R) (tt : timetable).
Hypothesis (HP : physical p) (HO : ordered_setpoints p) (HM : mass_slow p) (SO : sources_ok p) (SA : shades_admit p) (HE : encloses lo hi p).

Section Hour.
Variables (k : Z) (w w' : weather R) (ta ta' : R).
Hypothesis (HW : sunnier_hour w w') (HS : steady_leak p lo hi w) (HL : lamps_alike p w w') (HA : lo <= ta <= hi) (HA' : lo <= ta' <= hi).
Let n := rc_at p tt k w ta.
Let n' := rc_at p tt k w' ta'.
Lemma sunny_nets : rc_positive n /\ same_net n n' /\ slow_net n.
Proof.
  split; [exact (rc_at_positive p tt k w ta HP)|]. split; [|exact HM]. destruct HW as (W1 & W2 & _).
  assert (L : sp_exfiltration p (flow_at p tt k) (we_wind w') (we_temp w') ta' = sp_exfiltration p (flow_at p tt k) (we_wind w) (we_temp w) ta).
  { rewrite W1, W2. apply HS; auto. unfold flow_at. destruct (open_hour tt k); auto. }
  assert (E : sp_envelope p (flow_at p tt k) (we_wind w') (we_temp w') ta' = sp_envelope p (flow_at p tt k) (we_wind w) (we_temp w) ta) by (unfold sp_envelope; rewrite L; reflexivity).
  assert (T : sp_total p (flow_at p tt k) (we_wind w') (we_temp w') ta' = sp_total p (flow_at p tt k) (we_wind w) (we_temp w) ta) by (unfold sp_total; rewrite E; reflexivity).
  constructor; try reflexivity.
  - change (0.34 * sp_total p (flow_at p tt k) (we_wind w') (we_temp w') ta' = 0.34 * sp_total p (flow_at p tt k) (we_wind w) (we_temp w) ta). rewrite T. reflexivity.
  - exact W2.
  - change (sp_mixed p (flow_at p tt k) (we_wind w') (we_temp w') ta' = sp_mixed p (flow_at p tt k) (we_wind w) (we_temp w) ta). unfold sp_mixed. rewrite T, E, W2. reflexivity.
Qed.
Lemma lamps_same : sp_internal p (equip_at p tt k) (lights_at p tt k) (we_sol w') = sp_internal p (equip_at p tt k) (lights_at p tt k) (we_sol w).
Proof.
  unfold sp_internal. f_equal. destruct HL as [[D1 D2]|[E|E]].
  - assert (Z0 : lights_at p tt k = 0) by (unfold lights_at; destruct (occupied tt k); assumption). rewrite Z0. ring.
  - rewrite E. ring.
  - rewrite E. reflexivity.
Qed.
Lemma sunny_shares : rc_phi_ia n <= rc_phi_ia n' /\ rc_phi_st n <= rc_phi_st n' /\ rc_phi_m n <= rc_phi_m n'.
Proof.
  pose proof (C115_sun_l p w w' HP SO SA HW) as Q. pose proof (so_fsol p SO) as F. pose proof (so_surface p SO) as SU. pose proof (phy_tapfa p HP) as PT.
  assert (M : 2.5 <= sp_mass_area (sp_capacity p)) by (unfold sp_mass_area, clamp; pose proof (Rmax_l 0 (Rmin 1 ((sp_capacity p - 165) / 95))); pose proof (Rmax_l 0 (Rmin 1 ((sp_capacity p - 260) / 110))); lra).
  unfold n, n', rc_at, hour_rc. cbn [rc_phi_ia rc_phi_st rc_phi_m]. rewrite lamps_same.
  set (si := sp_internal p (equip_at p tt k) (lights_at p tt k) (we_sol w)) in *. set (a := sp_solar p (we_sol w)) in *. set (b := sp_solar p (we_sol w')) in *.
  set (am := sp_mass_area (sp_capacity p)) in *. set (wh := sp_windows p / sp_h_ms p) in *. set (f := ss_phiSolFraction (pa_settings p)) in *. set (T := st_totalAreaPerFloorArea (pa_structure p)) in *.
  assert (TI : 0 < / T) by (apply Rinv_0_lt_compat; lra).
  assert (N : (1 - f) * a + (1 - ss_phiIntFraction (pa_settings p)) * si <= (1 - f) * b + (1 - ss_phiIntFraction (pa_settings p)) * si) by (apply Rplus_le_compat_r, Rmult_le_compat_l; lra).
  split; [apply Rplus_le_compat_r, Rmult_le_compat_l; lra|].
  split; (apply Rmult_le_compat_l; [apply Rmult_le_pos; lra|exact N]).
Qed.
Lemma sunny_compare m0 m m0' m' a a' qh qc qh' qc' : m0 <= m0' ->
  iso_step n (heat_at p tt k) (cool_at p tt k) m0 m a qh qc -> iso_step n' (heat_at p tt k) (cool_at p tt k) m0' m' a' qh' qc' ->
  m <= m' /\ qh' <= qh /\ qc <= qc'.
Proof.
  intros D S S'. destruct sunny_nets as (X & N & SL). destruct sunny_shares as (H1 & H2 & H3).
  split; [exact (proj2 (steps_warmer n n' _ _ _ _ _ _ _ _ _ _ _ _ _ _ X N SL H1 H2 H3 D (Rle_refl _) (Rle_refl _) S S'))|].
  exact (steps_less n n' _ _ _ _ _ _ _ _ _ _ _ _ X N SL (setpoints_ordered p tt HO k) H1 H2 H3 D S S').
Qed.
End Hour.

Lemma sunny_hours k tm ta ws ns : iso_hours p tt k tm ta ws ns -> forall ws' tm' ta' ns', iso_hours p tt k tm' ta' ws' ns' -> length ns = length ns' ->
  Forall2 (fun w w' => sunnier_hour w w' /\ steady_leak p lo hi w /\ lamps_alike p w w') ws ws' -> lo <= ta <= hi -> lo <= ta' <= hi -> tm <= tm' ->
  Forall2 (fun a b => fst b <= fst a /\ snd a <= snd b) ns ns'.
Proof.
  induction 1 as [k tm ta ws|k tm ta w ws m a qh qc ns S R IH]; intros ws' tm' ta' ns' H' L HW A A' D.
  - destruct ns'; [constructor|discriminate L].
  - inversion H' as [|k2 tm2 ta2 w2 ws2 m' a' qh' qc' ns2 S' R' EQ1 EQ2 EQ3]; subst; [discriminate L|].
    inversion HW as [|u v us vs (W1 & W2 & W4) W3]; subst.
    destruct (sunny_compare k w w2 ta ta' W1 W2 W4 A A' _ _ _ _ _ _ _ _ _ _ D S S') as (KM & K1 & K2).
    constructor; [cbn; lra|].
    exact (IH ws2 m' a' ns2 R' ltac:(cbn in L; lia) W3 (air_enclosed p lo hi tt HO HE k _ _ _ _ _ _ S) (air_enclosed p lo hi tt HO HE k _ _ _ _ _ _ S') KM).
Qed.
End Sunny.
Lemma C115_l p lo hi tt ws ws' raw raw' r r' :
  physical p -> ordered_setpoints p -> mass_slow p -> sources_ok p -> shades_admit p -> timetable_of p tt -> encloses lo hi p ->
  Forall2 (fun w w' => sunnier_hour w w' /\ steady_leak p lo hi w /\ lamps_alike p w w') ws ws' ->
  simulateRaw (map_params Fin p) (map (map_weather Fin) ws) no_ratios = Ok (raw, r) ->
  simulateRaw (map_params Fin p) (map (map_weather Fin) ws') no_ratios = Ok (raw', r') ->
  forall k h h', nth_error raw k = Some h -> nth_error raw' k = Some h' ->
  exists qh qc qh' qc', hr_Qneed_ht h = Fin qh /\ hr_Qneed_cl h = Fin qc /\ hr_Qneed_ht h' = Fin qh' /\ hr_Qneed_cl h' = Fin qc' /\
    qh' <= qh /\ qc <= qc'.
Proof.
  intros HP HO HM HR SA HT HE HW H H' k h h' K K'.
  destruct (C04_year_l p tt ws raw r HP HO HT H) as (ns & N & E). destruct (C04_year_l p tt ws' raw' r' HP HO HT H') as (ns' & N' & E').
  assert (L : length ns = length ns').
  { pose proof (simulateRaw_length _ _ _ _ _ H). pose proof (simulateRaw_length _ _ _ _ _ H').
    apply (f_equal (@length _)) in E. apply (f_equal (@length _)) in E'. rewrite !map_length in E, E'. lia. }
  pose proof (proj1 HE) as B. pose proof (sunny_hours p lo hi tt HP HO HM HR SA HE 0%Z 20 20 ws ns N ws' 20 20 ns' N' L HW B B (Rle_refl 20)) as F.
  apply (map_nth_error (fun h => (hr_Qneed_ht h, hr_Qneed_cl h))) in K, K'. rewrite E in K. rewrite E' in K'.
  rewrite nth_error_map in K, K'. destruct (nth_error ns k) as [a|] eqn:Ea; [|discriminate K]. destruct (nth_error ns' k) as [b|] eqn:Eb; [|discriminate K'].
  cbn in K, K'. injection K as K1 K2. injection K' as K3 K4. exists (fst a), (snd a), (fst b), (snd b).
  split; [auto|]. split; [auto|]. split; [auto|]. split; [auto|]. exact (Forall2_nth _ _ _ F k a b Ea Eb).
Qed.
