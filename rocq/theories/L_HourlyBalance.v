(** Lemmas about the yearly heat balance and about years without cooling or heating. *)
From Coq Require Import Reals Lra Psatz ZArith List Bool Lia.
From Verif Require Import Base Num Xr M_Params M_Hourly M_Map S_RC S_Physical S_Network S_Year S_HourSpec S_Balance.
From Verif Require Import L_HourlyThm L_HourlyThm2.
Import ListNotations.
Open Scope R_scope.

Lemma iso_accounts p tt : forall k tm ta ws needs, iso_hours p tt k tm ta ws needs ->
  exists l, accounts p tt k tm ta ws l /\ map (fun a => (ac_heat a, ac_cool a)) l = needs.
Proof.
  intros k tm ta ws needs H. induction H as [k tm ta ws|k tm ta w ws tm' ta' qh qc needs HS HN IH].
  - exists []. split; [constructor|reflexivity].
  - destruct IH as (l & HL & EL). pose proof HS as (_ & (s & B) & _).
    exists (mkAccount (rc_at p tt k w ta) tm tm' s ta' qh qc :: l). split.
    + econstructor; cbn [ac_rc ac_before ac_after ac_surface ac_air ac_heat ac_cool]; auto.
    + cbn. rewrite EL. reflexivity.
Qed.

Lemma hour_energy x q tm0 tm1 ts ta : rc_balance x q tm0 tm1 ts ta ->
  q + (rc_phi_ia x + rc_phi_st x + rc_phi_m x)
  - (rc_ve x * (ta - rc_sup x) + rc_w x * (ts - rc_out x) + rc_em x * ((tm0 + tm1) / 2 - rc_out x))
  = rc_C x / 3.6 * (tm1 - tm0).
Proof. intros (A & B & C). lra. Qed.

Lemma accounts_energy p tt : forall k tm ta ws l, accounts p tt k tm ta ws l -> forall n,
  Rsum (map (fun a => ac_heat a - ac_cool a + gained a - lost a) (firstn n l))
  = sp_capacity p / 3.6 * (mass_after tm (firstn n l) - tm).
Proof.
  intros k tm ta ws l H. induction H as [k tm ta ws|k tm ta w ws a rest E0 E1 HS HB HN IH]; intros n.
  - rewrite firstn_nil. cbn. lra.
  - destruct n as [|n]; [cbn; lra|]. cbn [firstn map Rsum fold_right]. change (fold_right Rplus 0) with Rsum. rewrite IH.
    unfold mass_after. cbn [fold_left].
    pose proof (hour_energy _ _ _ _ _ _ HB) as HE. assert (EC : rc_C (ac_rc a) = sp_capacity p) by (rewrite E0; reflexivity).
    unfold gained, lost. rewrite E1. rewrite EC in HE. lra.
Qed.

Lemma C78_balance_l p tt ws raw r : physical p -> ordered_setpoints p -> timetable_of p tt ->
  simulateRaw (map_params Fin p) (map (map_weather Fin) ws) no_ratios = Ok (raw, r) ->
  exists l, accounts p tt 0 20 20 ws l /\
    map (fun h => (hr_Qneed_ht h, hr_Qneed_cl h)) raw = map (fun a => (Fin (ac_heat a), Fin (ac_cool a))) l /\
    forall n, Rsum (map (fun a => ac_heat a - ac_cool a + gained a - lost a) (firstn n l))
              = sp_capacity p / 3.6 * (mass_after 20 (firstn n l) - 20).
Proof.
  intros HP HO HT H. destruct (C04_year_l p tt ws raw r HP HO HT H) as (needs & HI & E).
  destruct (iso_accounts _ _ _ _ _ _ _ HI) as (l & HL & EL). exists l. split; [exact HL|]. split.
  - rewrite E, <- EL, map_map. reflexivity.
  - exact (accounts_energy p tt _ _ _ _ _ HL).
Qed.

Lemma C78_gains_l p flow equip lights wind tout sol tin : physical p ->
  let x := hour_rc p flow equip lights wind tout sol tin in
  rc_phi_ia x + rc_phi_st x + rc_phi_m x
  = sp_solar p sol + sp_internal p equip lights sol - window_share p (sp_solar p sol) (sp_internal p equip lights sol).
Proof.
  intros HP x. unfold x, hour_rc, window_share. cbn [rc_phi_ia rc_phi_st rc_phi_m].
  pose proof (phy_tapfa p HP). assert (0 < sp_h_ms p) by (unfold sp_h_ms; pose proof (phy_hci p HP); pose proof (phy_hri p HP); lra).
  field. split; lra.
Qed.

(** ** One-sided bounds *)
Lemma upper_side ve hs w ms em c sup out ta ts tm0 tm1 b g1 g2 g3 :
  0 < ve -> 0 < hs -> 0 <= w -> 0 < ms -> 0 < em -> (ms + em) / 2 <= c ->
  sup <= b -> out <= b -> tm0 <= b -> g1 <= 0 -> g2 <= 0 -> g3 <= 0 ->
  (ta <= b \/ ve * (sup - ta) + hs * (ts - ta) + g1 = 0) ->
  hs * (ta - ts) + w * (out - ts) + ms * ((tm0 + tm1) / 2 - ts) + g2 = 0 ->
  c * (tm1 - tm0) = ms * (ts - (tm0 + tm1) / 2) + em * (out - (tm0 + tm1) / 2) + g3 ->
  tm1 <= b /\ ta <= b.
Proof.
  intros Hv Hs Hw Hm He Hc HS HO H0 G1 G2 G3 HA E2 E3.
  set (tm := (tm0 + tm1) / 2) in *.
  assert (A : ta <= Rmax b ts).
  { destruct HA as [HA|HA]; [apply Rle_trans with b; [exact HA|apply Rmax_l]|].
    destruct (Rle_lt_dec ta (Rmax b ts)) as [L|L]; [exact L|]. pose proof (Rmax_l b ts). pose proof (Rmax_r b ts). nra. }
  assert (S : ts <= Rmax b tm).
  { destruct (Rle_lt_dec ts (Rmax b tm)) as [L|L]; [exact L|]. exfalso.
    pose proof (Rmax_l b tm). pose proof (Rmax_r b tm). rewrite (Rmax_right b ts) in A by lra. nra. }
  assert (M : tm1 <= b).
  { destruct (Rle_lt_dec tm1 b) as [L|L]; [exact L|]. exfalso.
    destruct (Rle_lt_dec tm b) as [K|K].
    - rewrite Rmax_left in S by lra.
      assert (tm1 * (c + (ms + em) / 2) = tm0 * (c - (ms + em) / 2) + ms * ts + em * out + g3) by (unfold tm in *; nra).
      nra.
    - rewrite Rmax_right in S by lra. nra. }
  split; [exact M|]. unfold tm in *. rewrite Rmax_left in S by lra. rewrite Rmax_left in A by lra. exact A.
Qed.

Lemma side_step x lo hi tm0 tm1 ta qh qc b : rc_positive x ->
  rc_phi_ia x <= 0 -> rc_phi_st x <= 0 -> rc_phi_m x <= 0 ->
  (rc_ms x + rc_em x) / 2 <= rc_C x / 3.6 ->
  rc_out x <= b -> rc_sup x <= b -> lo <= b -> b <= hi -> tm0 <= b ->
  iso_step x lo hi tm0 tm1 ta qh qc -> tm1 <= b /\ qc = 0.
Proof.
  intros HX G1 G2 G3 HC HO HS Hl Hh H0 ((f & (m & s & F) & T) & (u & B) & P1 & P2 & P3).
  pose proof HX as (X1 & X2 & X3 & X4 & X5 & X6).
  assert (FB : m <= b /\ f <= b).
  { destruct F as (F1 & F2 & F3). cbv zeta in F2, F3.
    apply (upper_side (rc_ve x) (rc_is x) (rc_w x) (rc_ms x) (rc_em x) (rc_C x / 3.6) (rc_sup x) (rc_out x) f s tm0 m b
      (rc_phi_ia x) (rc_phi_st x) (rc_phi_m x)); lra. }
  assert (ET : ta = Rmax lo f). { rewrite T. unfold clamp. rewrite (Rmin_right hi f) by lra. reflexivity. }
  assert (TB : ta <= b). { rewrite ET. apply Rmax_lub; lra. }
  split.
  - destruct B as (B1 & B2 & B3). cbv zeta in B2, B3.
    apply (upper_side (rc_ve x) (rc_is x) (rc_w x) (rc_ms x) (rc_em x) (rc_C x / 3.6) (rc_sup x) (rc_out x) ta u tm0 tm1 b
      (rc_phi_ia x) (rc_phi_st x) (rc_phi_m x)); lra.
  - destruct P3 as [P3|P3]; [|exact P3]. subst qh.
    destruct (Rle_lt_dec lo f) as [L|L].
    + rewrite Rmax_right in ET by lra. subst f. destruct (balance_given_air x _ _ tm0 m tm1 s u ta HX F B) as (E & _). lra.
    + rewrite Rmax_left in ET by lra.
      assert (D : tm1 - m <= 0 /\ ta - f <= 0).
      { destruct F as (F1 & F2 & F3). destruct B as (B1 & B2 & B3). cbv zeta in *.
        apply (upper_side (rc_ve x) (rc_is x) (rc_w x) (rc_ms x) (rc_em x) (rc_C x / 3.6) 0 0 (ta - f) (u - s) 0 (tm1 - m) 0 (0 - qc) 0 0); lra. }
      lra.
Qed.

(** The mirror image of a network: all temperatures and gains negated. *)
Definition mirror (x : rc) : rc :=
  mkRC (rc_ve x) (rc_is x) (rc_w x) (rc_ms x) (rc_em x) (rc_C x) (- rc_out x) (- rc_sup x) (- rc_phi_ia x) (- rc_phi_st x) (- rc_phi_m x).
Lemma mirror_balance x q tm0 tm1 ts ta : rc_balance x q tm0 tm1 ts ta -> rc_balance (mirror x) (- q) (- tm0) (- tm1) (- ts) (- ta).
Proof. intros (A & B & C). unfold rc_balance, mirror. cbn [rc_ve rc_is rc_w rc_ms rc_em rc_C rc_out rc_sup rc_phi_ia rc_phi_st rc_phi_m]. cbv zeta in *. repeat split; lra. Qed.
Lemma mirror_clamp lo hi f : lo <= hi -> - clamp lo hi f = clamp (- hi) (- lo) (- f).
Proof. intros H. unfold clamp, Rmax, Rmin. repeat destruct Rle_dec; lra. Qed.
Lemma mirror_step x lo hi tm0 tm1 ta qh qc : lo <= hi -> iso_step x lo hi tm0 tm1 ta qh qc ->
  iso_step (mirror x) (- hi) (- lo) (- tm0) (- tm1) (- ta) qc qh.
Proof.
  intros HL ((f & (m & s & F) & T) & (u & B) & P1 & P2 & P3). split; [|split; [|tauto]].
  - exists (- f). split; [exists (- m), (- s)|rewrite T; apply mirror_clamp; exact HL].
    apply mirror_balance in F. rewrite Ropp_0 in F. exact F.
  - exists (- u). apply mirror_balance in B. replace (qc - qh) with (- (qh - qc)) by ring. exact B.
Qed.
Lemma side_step_low x lo hi tm0 tm1 ta qh qc a : rc_positive x ->
  0 <= rc_phi_ia x -> 0 <= rc_phi_st x -> 0 <= rc_phi_m x ->
  (rc_ms x + rc_em x) / 2 <= rc_C x / 3.6 ->
  a <= rc_out x -> a <= rc_sup x -> lo <= a -> a <= hi -> a <= tm0 ->
  iso_step x lo hi tm0 tm1 ta qh qc -> a <= tm1 /\ qh = 0.
Proof.
  intros HX G1 G2 G3 HC HO HS Hl Hh H0 IS. apply mirror_step in IS; [|lra].
  assert (D : - tm1 <= - a /\ qh = 0).
  { refine (side_step (mirror x) _ _ _ _ _ _ _ (- a) _ _ _ _ _ _ _ _ _ _ IS);
      unfold mirror; cbn [rc_ve rc_is rc_w rc_ms rc_em rc_C rc_out rc_sup rc_phi_ia rc_phi_st rc_phi_m]; try lra. exact HX. }
  lra.
Qed.

(** ** The hours of a year *)
Lemma supplied_le p t b : recovery_ok p -> t <= b -> 20 <= b -> ve_preheat (pa_ventilation p) <= b -> sp_supplied p t <= b.
Proof. intros [R0 R1] Ht H20 HP. unfold sp_supplied. apply Rmax_lub; [exact HP|]. nra. Qed.
Lemma supplied_ge p t a : recovery_ok p -> a <= t -> a <= 20 -> a <= sp_supplied p t.
Proof. intros [R0 R1] Ht H20. unfold sp_supplied. eapply Rle_trans; [|apply Rmax_r]. nra. Qed.
Lemma mixed_le p f w t ti b : physical p -> 0 <= f -> t <= b -> sp_supplied p t <= b -> sp_mixed p f w t ti <= b.
Proof.
  intros HP Hf Ht Hs. refine (proj2 (mixed_between p f w t ti (Rmin t (sp_supplied p t)) b HP Hf _ _)).
  - split; [apply Rmin_l|exact Ht].
  - split; [apply Rmin_r|exact Hs].
Qed.
Lemma mixed_ge p f w t ti a : physical p -> 0 <= f -> a <= t -> a <= sp_supplied p t -> a <= sp_mixed p f w t ti.
Proof.
  intros HP Hf Ht Hs. refine (proj1 (mixed_between p f w t ti a (Rmax t (sp_supplied p t)) HP Hf _ _)).
  - split; [exact Ht|apply Rmax_l].
  - split; [exact Hs|apply Rmax_r].
Qed.
Lemma flow_at_nonneg p tt k : physical p -> 0 <= flow_at p tt k.
Proof. intros HP. unfold flow_at. destruct (open_hour tt k); [apply (phy_supply p HP)|lra]. Qed.

Lemma cold_hours p tt b : physical p -> mass_slow p -> recovery_ok p -> no_sources p -> band_contains p b ->
  ve_preheat (pa_ventilation p) <= b -> 20 <= b ->
  forall k tm ta ws needs, iso_hours p tt k tm ta ws needs ->
  (forall w, In w ws -> we_temp w <= b /\ Forall (eq 0) (we_sol w)) -> tm <= b ->
  Forall (fun q => snd q = 0) needs.
Proof.
  intros HP HM HR (S1 & S2 & S3 & S4) (B1 & B2) HB H20 k tm ta ws needs H.
  induction H as [k tm ta ws|k tm ta w ws tm' ta' qh qc needs HS HN IH]; intros HW H0; [constructor|].
  destruct (HW w (or_introl eq_refl)) as (W1 & W2).
  assert (EE : equip_at p tt k = 0) by (unfold equip_at; destruct (occupied tt k); assumption).
  assert (EL : lights_at p tt k = 0) by (unfold lights_at; destruct (occupied tt k); assumption).
  assert (BL : heat_at p tt k <= b /\ b <= cool_at p tt k) by (unfold heat_at, cool_at; destruct (occupied tt k); lra).
  assert (D : tm' <= b /\ qc = 0).
  { refine (side_step (rc_at p tt k w ta) _ _ _ _ _ _ _ b (rc_at_positive p tt k w ta HP) _ _ _ _ _ _ _ _ H0 HS);
      try tauto; unfold rc_at, hour_rc; cbn [rc_phi_ia rc_phi_st rc_phi_m rc_ms rc_em rc_C rc_out rc_sup];
      rewrite ?(dark_solar p _ W2), ?EE, ?EL; unfold sp_internal; try (right; ring).
    apply mixed_le; auto. { apply flow_at_nonneg, HP. } apply supplied_le; auto. }
  constructor; [exact (proj2 D)|]. apply IH; [|exact (proj1 D)]. intros w' I. apply HW. right. exact I.
Qed.

Lemma C79_no_cooling_l p tt b ws raw r : physical p -> mass_slow p -> recovery_ok p -> no_sources p -> band_contains p b ->
  ve_preheat (pa_ventilation p) <= b -> 20 <= b -> timetable_of p tt ->
  (forall w, In w ws -> we_temp w <= b /\ Forall (eq 0) (we_sol w)) ->
  simulateRaw (map_params Fin p) (map (map_weather Fin) ws) no_ratios = Ok (raw, r) ->
  Forall (fun h => hr_Qneed_cl h = Fin 0) raw.
Proof.
  intros HP HM HR HS HB HB2 H20 HT HW H.
  assert (HO : ordered_setpoints p) by (destruct HB as [[A B] [C D]]; split; lra).
  destruct (C04_year_l p tt ws raw r HP HO HT H) as (needs & HI & E).
  pose proof (cold_hours p tt b HP HM HR HS HB HB2 H20 _ _ _ _ _ HI HW H20) as F. clear - E F.
  revert needs E F. induction raw as [|h raw IH]; intros needs E F; [constructor|].
  destruct needs as [|q needs]; [discriminate E|]. cbn [map] in E. injection E as E1 E2 E3.
  apply Forall_cons_iff in F. destruct F as (F1 & F2). constructor; [rewrite E2, F1; reflexivity|]. exact (IH needs E3 F2).
Qed.

(** Gains that are no sinks. *)
Lemma nth_nonneg l k : all_nonneg l -> 0 <= nth k l 0.
Proof. intros H. destruct (nth_in_or_default k l 0) as [I| ->]; [apply H, I|lra]. Qed.
Lemma Rsum_nonneg {A} (f : A -> R) l : (forall x, In x l -> 0 <= f x) -> 0 <= Rsum (map f l).
Proof.
  induction l as [|a l IH]; intros H; [cbn; lra|]. change (Rsum (map f (a :: l))) with (f a + Rsum (map f l)).
  pose proof (H a (or_introl eq_refl)). specialize (IH (fun x I => H x (or_intror I))). lra.
Qed.
Lemma aperture_nonneg p v k : physical p -> sources_ok p -> all_nonneg v -> 0 <= sp_aperture p v k.
Proof.
  intros HP HS HV. unfold sp_aperture. apply Rmult_le_pos; [|left; apply Rinv_0_lt_compat, (phy_area p HP)].
  pose proof (nth_nonneg _ k (phy_wallArea p HP)). pose proof (nth_nonneg _ k (phy_windowArea p HP)). pose proof (nth_nonneg _ k HV).
  pose proof (nth_nonneg _ k (so_abs p HS)). pose proof (nth_nonneg _ k (phy_wallU p HP)). pose proof (so_rse p HS).
  apply Rplus_le_le_0_compat; repeat apply Rmult_le_pos; assumption.
Qed.
Lemma solar_nonneg p sol : physical p -> sources_ok p -> all_nonneg sol -> 0 <= sp_solar p sol.
Proof.
  intros HP HS HV. unfold sp_solar. apply Rsum_nonneg. intros k _. pose proof (nth_nonneg sol k HV) as G.
  apply Rmult_le_pos; [exact G|]. pose proof (aperture_nonneg p _ k HP HS (so_shgc p HS)) as A1.
  pose proof (aperture_nonneg p _ k HP HS (so_scf p HS)) as A2.
  assert (SH : 0 <= sp_shade p (nth k sol 0) <= 1).
  { unfold sp_shade. pose proof (phy_irr p HP) as I. pose proof (so_shade p HS) as F. set (g := nth k sol 0) in *.
    set (irr := st_irradianceForMaxShadingUse (pa_structure p)) in *. set (sf := st_shadingFactorAtMaxUse (pa_structure p)) in *.
    assert (Q : 0 <= Rmin g irr / irr <= 1).
    { assert (0 < / irr) by (apply Rinv_0_lt_compat; lra). split.
      - apply Rmult_le_pos; [apply Rmin_glb; lra|lra].
      - apply Rmult_le_reg_r with irr; [lra|]. unfold Rdiv. rewrite Rmult_assoc, Rinv_l by lra. pose proof (Rmin_r g irr). lra. }
    replace (sf / irr * Rmin g irr) with (sf * (Rmin g irr / irr)) by (field; lra). nra. }
  nra.
Qed.

Lemma warm_hours p tt a : physical p -> mass_slow p -> recovery_ok p -> sources_ok p -> daylit p -> band_contains p a -> a <= 20 ->
  forall k tm ta ws needs, iso_hours p tt k tm ta ws needs ->
  (forall w, In w ws -> a <= we_temp w /\ all_nonneg (we_sol w)) -> a <= tm ->
  Forall (fun q => fst q = 0) needs.
Proof.
  intros HP HM HR HS HD (B1 & B2) H20 k tm ta ws needs H.
  induction H as [k tm ta ws|k tm ta w ws tm' ta' qh qc needs HI HN IH]; intros HW H0; [constructor|].
  destruct (HW w (or_introl eq_refl)) as (W1 & W2).
  assert (EE : 0 <= equip_at p tt k) by (unfold equip_at; destruct (occupied tt k); apply HS).
  assert (EL : 0 <= lights_at p tt k) by (unfold lights_at; destruct (occupied tt k); apply HS).
  assert (BL : heat_at p tt k <= a /\ a <= cool_at p tt k) by (unfold heat_at, cool_at; destruct (occupied tt k); lra).
  pose proof (solar_nonneg p (we_sol w) HP HS W2) as SO.
  assert (SI : 0 <= sp_internal p (equip_at p tt k) (lights_at p tt k) (we_sol w)).
  { unfold sp_internal. pose proof (lights_bounds p (we_sol w) HP HD W2) as LB. pose proof (so_elec p HS).
    apply Rplus_le_le_0_compat; [exact EE|]. apply Rmult_le_pos; [|assumption]. apply Rmult_le_pos; [lra|exact EL]. }
  assert (D : a <= tm' /\ qh = 0).
  { pose proof (so_fint p HS) as FI. pose proof (so_fsol p HS) as FS. pose proof (so_surface p HS) as SF. pose proof (phy_tapfa p HP) as TP.
    assert (AM : 0 <= sp_mass_area (sp_capacity p)).
    { unfold sp_mass_area, clamp. pose proof (Rmax_l 0 (Rmin 1 ((sp_capacity p - 165) / 95))). pose proof (Rmax_l 0 (Rmin 1 ((sp_capacity p - 260) / 110))). lra. }
    assert (IV : 0 <= / st_totalAreaPerFloorArea (pa_structure p)) by (left; apply Rinv_0_lt_compat, TP).
    set (so := sp_solar p (we_sol w)) in *. set (si := sp_internal p (equip_at p tt k) (lights_at p tt k) (we_sol w)) in *.
    assert (NA : 0 <= (1 - ss_phiSolFraction (pa_settings p)) * so + (1 - ss_phiIntFraction (pa_settings p)) * si).
    { apply Rplus_le_le_0_compat; apply Rmult_le_pos; lra. }
    refine (side_step_low (rc_at p tt k w ta) _ _ _ _ _ _ _ a (rc_at_positive p tt k w ta HP) _ _ _ _ _ _ _ _ H0 HI);
      try tauto; unfold rc_at, hour_rc; cbn [rc_phi_ia rc_phi_st rc_phi_m rc_ms rc_em rc_C rc_out rc_sup]; fold so; fold si.
    - apply Rplus_le_le_0_compat; apply Rmult_le_pos; lra.
    - apply Rmult_le_pos; [apply Rmult_le_pos; [lra|exact IV]|exact NA].
    - apply Rmult_le_pos; [apply Rmult_le_pos; [lra|exact IV]|exact NA].
    - apply mixed_ge; auto. { apply flow_at_nonneg, HP. } apply supplied_ge; auto. }
  constructor; [exact (proj2 D)|]. apply IH; [|exact (proj1 D)]. intros w' I. apply HW. right. exact I.
Qed.

Lemma C79_no_heating_l p tt a ws raw r : physical p -> mass_slow p -> recovery_ok p -> sources_ok p -> daylit p -> band_contains p a ->
  a <= 20 -> timetable_of p tt ->
  (forall w, In w ws -> a <= we_temp w /\ all_nonneg (we_sol w)) ->
  simulateRaw (map_params Fin p) (map (map_weather Fin) ws) no_ratios = Ok (raw, r) ->
  Forall (fun h => hr_Qneed_ht h = Fin 0) raw.
Proof.
  intros HP HM HR HS HD HB H20 HT HW H.
  assert (HO : ordered_setpoints p) by (destruct HB as [[A B] [C D]]; split; lra).
  destruct (C04_year_l p tt ws raw r HP HO HT H) as (needs & HI & E).
  pose proof (warm_hours p tt a HP HM HR HS HD HB H20 _ _ _ _ _ HI HW H20) as F. clear - E F.
  revert needs E F. induction raw as [|h raw IH]; intros needs E F; [constructor|].
  destruct needs as [|q needs]; [discriminate E|]. cbn [map] in E. injection E as E1 E2 E3.
  apply Forall_cons_iff in F. destruct F as (F1 & F2). constructor; [rewrite E1, F1; reflexivity|]. exact (IH needs E3 F2).
Qed.
