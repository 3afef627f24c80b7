(** Steady weather, and the design load. *)
From Coq Require Import Reals Lra Psatz ZArith List Lia.
From Verif Require Import Base Num Xr M_Params M_Hourly M_Map S_RC S_Physical S_Network S_Year S_HourSpec S_Balance S_Compare S_YearCompare S_YearClimate S_YearStable S_YearLoad
  L_Xr L_HourlyR L_HourlySpec L_HourlyFin L_HourlyFin2 L_HourlyShape L_HourlyRun L_HourlyThm L_HourlyThm2 L_HourlyBalance L_Compare L_Compare2 L_YearCompare L_YearCompare2 L_YearClimate L_YearStable.
Import ListNotations.
Open Scope R_scope.

(** Every start has a free-floating hour. *)
Lemma free_exists p tt k w ta tm : physical p -> ordered_setpoints p -> exists f m s, rc_balance (rc_at p tt k w ta) 0 tm m s f.
Proof.
  intros HP HO. destruct (initialize_fin p HP no_ratios) as (i & Ei & _). pose proof (initialize_ok p _ i HP Ei) as HI.
  pose proof (step_iso p i (sched_of p tt k) w {| th_TMT1 := tm; th_ti := ta |} HP HI (flow_nonneg p tt k HP) (ordered_at p tt k HO)) as S. cbv zeta in S.
  rewrite (hour_rc_spec p HP i Ei) in S. destruct S as ((f & (m & s & F) & _) & _). exists f, m, s. exact F.
Qed.
(** A state that heating keeps. *)
Lemma kept_step x lo hi m s q f u v : rc_positive x -> slow_net x -> lo <= hi -> 0 <= q -> rc_balance x q m m s lo -> rc_balance x 0 m u v f -> iso_step x lo hi m m lo q 0.
Proof.
  intros HX HC LH Q B F. split; [|split; [exists s; rewrite Rminus_0_r; exact B|split; [exact Q|split; [lra|auto]]]].
  exists f. split; [exists u, v; exact F|].
  destruct (Rle_lt_dec f lo) as [L|L].
  - unfold clamp. rewrite Rmax_left; [reflexivity|]. pose proof (Rmin_r hi f). lra.
  - pose proof (plant_more x _ _ _ _ _ _ _ _ _ HX HC B F (Rlt_le _ _ L)) as K. assert (E : q = 0) by lra. subst q.
    destruct (balance_unique x 0 m m s lo u v f HX B F) as (_ & _ & E). lra.
Qed.

Section Building.
Variable p : params_t R.
Hypothesis HP : physical p.
Lemma envelope_signs : 0 < sp_is p /\ 0 <= sp_windows p /\ 0 < sp_opaque p < sp_ms p /\ 0 < sp_em p.
Proof.
  pose proof (rc_at_positive p {| tt_firstHour := 0; tt_lastHour := 0; tt_firstDay := 0; tt_lastDay := 0 |} 0 {| we_wind := 0; we_temp := 0; we_sol := nil |} 0 HP) as (_ & X2 & X3 & X4 & X5 & X6).
  set (x := rc_at _ _ _ _ _) in *. change (rc_em x) with (sp_em p) in X5. change (rc_is x) with (sp_is p) in X2. change (rc_w x) with (sp_windows p) in X3.
  split; [exact X2|]. split; [exact X3|]. split; [|exact X5]. rewrite <- (opaque_spec p HP), <- (ms_spec p HP). split; [apply hOpaque_pos|apply hOpaque_lt_ms, HP].
Qed.
(** Surface temperature of the steady state. *)
Definition steady_surface (w : weather R) (inside : R) : R := we_temp w + (inside - we_temp w) * (sp_is p / (sp_is p + sp_windows p + sp_opaque p)).
Lemma steady_surface_eq w a : sp_is p * (a - steady_surface w a) = (sp_windows p + sp_opaque p) * (steady_surface w a - we_temp w).
Proof. destruct envelope_signs as (A & B & (C & D) & E). unfold steady_surface. field. lra. Qed.
Lemma transmission_eq w a : sp_is p * (a - steady_surface w a) = transmission p * (a - we_temp w).
Proof. destruct envelope_signs as (A & B & (C & D) & E). unfold steady_surface, transmission. field. lra. Qed.
Lemma steady_mass_eq w a : sp_ms p * (steady_mass p w a - steady_surface w a) = - (sp_opaque p * (steady_surface w a - we_temp w)) /\
  sp_ms p * (steady_surface w a - steady_mass p w a) + sp_em p * (we_temp w - steady_mass p w a) = 0.
Proof.
  destruct envelope_signs as (A & B & (C & D) & E).
  set (s := steady_surface w a). set (o := we_temp w).
  assert (M : steady_mass p w a = o + (s - o) * (1 - sp_opaque p / sp_ms p)) by (unfold steady_mass, s, o, steady_surface; ring).
  rewrite M. unfold sp_em. clear M. clearbody s o. generalize dependent (sp_ms p). intros ms D. split; field; lra.
Qed.
Lemma steady_between w a : we_temp w <= a -> steady_mass p w a <= a /\ we_temp w <= steady_mass p w a /\ steady_surface w a <= a /\ we_temp w <= steady_surface w a.
Proof.
  intros H. destruct envelope_signs as (A & B & (C & D) & E). destruct (steady_mass_eq w a) as [E1 E2]. pose proof (steady_surface_eq w a) as E3.
  set (s := steady_surface w a) in *. set (m := steady_mass p w a) in *. set (o := we_temp w) in *. clearbody s m o.
  assert (S1 : o <= s).
  { destruct (Rle_lt_dec o s) as [L|L]; [exact L|]. assert (0 < sp_is p * (a - s)) by (apply Rmult_lt_0_compat; lra). assert (0 <= (sp_windows p + sp_opaque p) * (o - s)) by (apply Rmult_le_pos; lra). lra. }
  assert (S2 : s <= a).
  { destruct (Rle_lt_dec s a) as [L|L]; [exact L|]. assert (0 < sp_is p * (s - a)) by (apply Rmult_lt_0_compat; lra). assert (0 <= (sp_windows p + sp_opaque p) * (s - o)) by (apply Rmult_le_pos; lra). lra. }
  assert (M1 : m <= s).
  { destruct (Rle_lt_dec m s) as [L|L]; [exact L|]. assert (0 < sp_ms p * (m - s)) by (apply Rmult_lt_0_compat; lra). assert (0 <= sp_opaque p * (s - o)) by (apply Rmult_le_pos; lra). lra. }
  assert (M2 : o <= m).
  { destruct (Rle_lt_dec o m) as [L|L]; [exact L|]. assert (0 < sp_em p * (o - m)) by (apply Rmult_lt_0_compat; lra). assert (0 <= sp_ms p * (s - m)) by (apply Rmult_le_pos; lra). lra. }
  lra.
Qed.

(** ** Steady weather *)
Section Steady.
Variables (tt : timetable) (inside flow : R) (w : weather R).
Hypothesis (HU : constant_use p tt inside flow) (HN : no_sources p) (HD : Forall (eq 0) (we_sol w)).
Lemma use_at k : heat_at p tt k = inside /\ flow_at p tt k = flow /\ equip_at p tt k = 0 /\ lights_at p tt k = 0.
Proof.
  destruct HU as (U1 & U2 & U3 & U4). destruct HN as (N1 & N2 & N3 & N4). unfold heat_at, flow_at, equip_at, lights_at. rewrite U1, U2, U3, N1, N2, N3, N4.
  split; [destruct (occupied tt k); reflexivity|]. split; [|split; destruct (occupied tt k); reflexivity].
  destruct (open_hour tt k) eqn:O; [reflexivity|]. destruct U4 as [-> | [V1 V2]]; [reflexivity|exfalso].
  unfold open_hour in O. cbv zeta in O. pose proof (Z.mod_pos_bound k 24 eq_refl) as M.
  rewrite (proj2 (Z.leb_le (tt_firstHour tt) (k mod 24)%Z)), (proj2 (Z.leb_le (k mod 24)%Z (tt_lastHour tt))) in O by lia. discriminate O.
Qed.
Lemma steady_balance k : rc_balance (rc_at p tt k w inside) (steady_loss p flow w inside) (steady_mass p w inside) (steady_mass p w inside) (steady_surface w inside) inside.
Proof.
  destruct (use_at k) as (_ & F & EQ & LI). pose proof (steady_surface_eq w inside) as E1. pose proof (transmission_eq w inside) as E2. destruct (steady_mass_eq w inside) as [E3 E4].
  unfold rc_at. rewrite F, EQ, LI. unfold rc_balance, hour_rc. cbn [rc_ve rc_is rc_w rc_ms rc_em rc_C rc_out rc_sup rc_phi_ia rc_phi_st rc_phi_m].
  rewrite (dark_solar p _ HD). unfold sp_internal. unfold steady_loss.
  set (s := steady_surface w inside) in *. set (m := steady_mass p w inside) in *. clearbody s m.
  generalize dependent (transmission p). intros tr E2. set (o := we_temp w) in *. clearbody o.
  generalize (sp_total p flow (we_wind w) o inside) (sp_mixed p flow (we_wind w) o inside). intros ve sup.
  generalize ((st_totalAreaPerFloorArea (pa_structure p) - sp_mass_area (sp_capacity p) - sp_windows p / sp_h_ms p) / st_totalAreaPerFloorArea (pa_structure p)). intros c1.
  generalize (sp_mass_area (sp_capacity p) / st_totalAreaPerFloorArea (pa_structure p)). intros c2.
  generalize (sp_lights_on p (we_sol w)). intros li. generalize dependent (sp_capacity p / 3.6). intros cc.
  cbv zeta. replace ((m + m) / 2) with m by lra. rewrite !Rmult_0_r, !Rmult_0_l, !Rplus_0_r, !Rmult_0_r, !Rplus_0_r, !Rmult_0_r.
  split; [lra|]. split; [lra|]. rewrite E4. ring.
Qed.
End Steady.
End Building.

Lemma kept_hours p tt w inside flow : physical p -> ordered_setpoints p -> mass_slow p -> constant_use p tt inside flow -> no_sources p -> Forall (eq 0) (we_sol w) -> 0 <= steady_loss p flow w inside ->
  forall n k, iso_hours p tt k (steady_mass p w inside) inside (repeat w n) (repeat (steady_loss p flow w inside, 0) n).
Proof.
  intros HP HO HM HU HN HD HQ. induction n as [|n IH]; intros k; [constructor|]. cbn [repeat]. apply iso_hour with (tm' := steady_mass p w inside) (ta' := inside); [|apply IH].
  destruct (use_at p tt inside flow HU HN k) as (H & _). pose proof (ordered_at p tt k HO) as LH. rewrite H in *.
  destruct (free_exists p tt k w inside (steady_mass p w inside) HP HO) as (f & u & v & F).
  exact (kept_step _ _ _ _ _ _ f u v (rc_at_positive p tt k w inside HP) HM LH HQ (steady_balance p HP tt inside flow w HU HN HD k) F).
Qed.
Lemma iso_hours_length p tt k tm ta ws ns : iso_hours p tt k tm ta ws ns -> (length ns <= length ws)%nat.
Proof. induction 1; cbn [length]; lia. Qed.
Lemma C99_l p lo hi tt w inside flow N raw r :
  physical p -> ordered_setpoints p -> mass_slow p -> timetable_of p tt -> encloses lo hi p -> constant_use p tt inside flow -> no_sources p ->
  Forall (eq 0) (we_sol w) -> steady_leak p lo hi w -> 0 <= steady_loss p flow w inside ->
  simulateRaw (map_params Fin p) (map (map_weather Fin) (repeat w N)) no_ratios = Ok (raw, r) ->
  0 < memory p < 1 /\
  forall n h, nth_error raw n = Some h -> exists qh qc, hr_Qneed_ht h = Fin qh /\ hr_Qneed_cl h = Fin qc /\
    let b := sp_is p * memory p ^ n * Rabs (20 - steady_mass p w inside) in
    Rabs (qh - steady_loss p flow w inside) <= b /\ qc <= b.
Proof.
  intros HP HO HM HT HE HU HN HD HL HQ H. split; [exact (memory_range p HP HM)|]. intros n h K.
  destruct (C04_year_l p tt _ raw r HP HO HT H) as (ns & NS & E).
  apply (map_nth_error (fun h => (hr_Qneed_ht h, hr_Qneed_cl h))) in K. rewrite E, nth_error_map in K. destruct (nth_error ns n) as [u|] eqn:Ea; [|discriminate K].
  cbn in K. injection K as K1 K2. exists (fst u), (snd u). split; [auto|]. split; [auto|]. cbv zeta.
  assert (LN : (n < length ns)%nat) by (apply nth_error_Some; congruence).
  assert (LW : (length ns <= N)%nat) by (pose proof (iso_hours_length p tt _ _ _ _ _ NS) as L; rewrite repeat_length in L; exact L).
  assert (LS : lo <= inside <= hi). { destruct HE as (_ & A1 & A2 & A3 & A4). destruct HU as (U1 & _). destruct HO as (O1 & _). lra. }
  set (m := steady_mass p w inside) in *. set (q := steady_loss p flow w inside) in *.
  assert (D : - Rabs (20 - m) <= 20 - m <= Rabs (20 - m)) by (unfold Rabs; destruct (Rcase_abs _); lra).
  assert (Eb : nth_error (repeat (q, 0) N) n = Some (q, 0)) by (apply nth_error_repeat; lia).
  destruct (fade_hours p lo hi tt HP HO HM HE 0%Z m inside (repeat w N) (repeat (q, 0) N) (kept_hours p tt w inside flow HP HO HM HU HN HD HQ N 0%Z)
    20 20 ns (Rabs (20 - m)) NS (fun v V => eq_ind_r (fun v => same_leak p lo hi v v) HL (repeat_spec N w v V)) LS (proj1 HE) D n (q, 0) u Eb Ea) as [S1 S2].
  cbn [fst snd] in S1, S2. split; [exact S1|]. rewrite Rminus_0_r in S2. pose proof (Rle_abs (snd u)). lra.
Qed.

(** ** The design load *)
Lemma sources_at p tt k w ta : physical p -> sources_ok p -> daylit p -> all_nonneg (we_sol w) ->
  0 <= rc_phi_ia (rc_at p tt k w ta) /\ 0 <= rc_phi_st (rc_at p tt k w ta) /\ 0 <= rc_phi_m (rc_at p tt k w ta).
Proof.
  intros HP HS HD W2.
  assert (EE : 0 <= equip_at p tt k) by (unfold equip_at; destruct (occupied tt k); apply HS).
  assert (EL : 0 <= lights_at p tt k) by (unfold lights_at; destruct (occupied tt k); apply HS).
  pose proof (solar_nonneg p (we_sol w) HP HS W2) as SO.
  assert (SI : 0 <= sp_internal p (equip_at p tt k) (lights_at p tt k) (we_sol w)).
  { unfold sp_internal. pose proof (lights_bounds p (we_sol w) HP HD W2) as LB. pose proof (so_elec p HS).
    apply Rplus_le_le_0_compat; [exact EE|]. apply Rmult_le_pos; [|assumption]. apply Rmult_le_pos; [lra|exact EL]. }
  pose proof (so_fint p HS) as FI. pose proof (so_fsol p HS) as FS. pose proof (so_surface p HS) as SF. pose proof (phy_tapfa p HP) as TP.
  assert (AM : 0 <= sp_mass_area (sp_capacity p)).
  { unfold sp_mass_area, clamp. pose proof (Rmax_l 0 (Rmin 1 ((sp_capacity p - 165) / 95))). pose proof (Rmax_l 0 (Rmin 1 ((sp_capacity p - 260) / 110))). lra. }
  assert (IV : 0 <= / st_totalAreaPerFloorArea (pa_structure p)) by (left; apply Rinv_0_lt_compat, TP).
  unfold rc_at, hour_rc. cbn [rc_phi_ia rc_phi_st rc_phi_m].
  set (so := sp_solar p (we_sol w)) in *. set (si := sp_internal p (equip_at p tt k) (lights_at p tt k) (we_sol w)) in *.
  assert (NA : 0 <= (1 - ss_phiSolFraction (pa_settings p)) * so + (1 - ss_phiIntFraction (pa_settings p)) * si).
  { apply Rplus_le_le_0_compat; apply Rmult_le_pos; lra. }
  split; [apply Rplus_le_le_0_compat; apply Rmult_le_pos; lra|].
  split; (apply Rmult_le_pos; [apply Rmult_le_pos; [lra|exact IV]|exact NA]).
Qed.
(** A controlled hour that starts at least as warm as the steady state of [base] in [out] degrees. *)
Lemma load_step x lo hi m0 m a qh qc base out s1 m1 V : rc_positive x -> slow_net x -> lo <= hi ->
  0 <= rc_phi_ia x -> 0 <= rc_phi_st x -> 0 <= rc_phi_m x -> out <= rc_out x -> out <= rc_sup x -> base <= lo -> out <= base -> rc_ve x <= V ->
  rc_is x * (base - s1) + rc_w x * (out - s1) + rc_ms x * (m1 - s1) = 0 -> rc_ms x * (s1 - m1) + rc_em x * (out - m1) = 0 -> m1 <= m0 ->
  iso_step x lo hi m0 m a qh qc -> m1 <= m /\ (qh = 0 \/ qh <= V * (lo - out) + rc_is x * (lo - s1)).
Proof.
  intros HX HC LH G1 G2 G3 HO HS HB HBO HV E1 E2 H0 ((f & (u & v & F) & T) & (s & B) & P1 & P2 & P3).
  pose proof HX as (X1 & X2 & X3 & X4 & X5 & X6). pose proof B as (B1 & B2 & B3). cbv zeta in B1, B2, B3.
  assert (AL : lo <= a) by (rewrite T; unfold clamp; apply Rmax_l).
  assert (W1 : 0 <= rc_w x * (rc_out x - out)) by (apply Rmult_le_pos; lra). assert (W2 : 0 <= rc_em x * (rc_out x - out)) by (apply Rmult_le_pos; lra).
  destruct (warm_mass (rc_is x) (rc_w x) (rc_ms x) (rc_em x) (rc_C x / 3.6) X2 X3 X4 X5 HC (a - base) (s - s1) (m0 - m1) (m - m1)
    (rc_w x * (rc_out x - out) + rc_phi_st x) (rc_em x * (rc_out x - out) + rc_phi_m x)) as [K1 K2]; try lra.
  split; [lra|]. destruct P3 as [-> | ->]; [left; reflexivity|].
  destruct (Rle_lt_dec a lo) as [L|L].
  - right. assert (EA : a = lo) by lra. rewrite EA in B1. assert (V1 : 0 <= rc_ve x * (rc_sup x - out)) by (apply Rmult_le_pos; lra).
    assert (V2 : 0 <= (V - rc_ve x) * (lo - out)) by (apply Rmult_le_pos; lra). assert (V3 : 0 <= rc_is x * (s - s1)) by (apply Rmult_le_pos; lra). lra.
  - left. assert (A : a <= f) by (revert T L; unfold clamp, Rmax, Rmin; repeat destruct (Rle_dec _ _); intros; lra).
    pose proof (plant_more x _ _ _ _ _ _ _ _ _ HX HC B F A). lra.
Qed.
Lemma load_hours p lo hi tt V out base : physical p -> ordered_setpoints p -> mass_slow p -> recovery_ok p -> sources_ok p -> daylit p -> encloses lo hi p ->
  out <= base <= 20 -> base <= ht_tempOcc (pa_heating p) -> base <= ht_tempUnocc (pa_heating p) ->
  forall k tm ta ws ns, iso_hours p tt k tm ta ws ns -> (forall w, In w ws -> out <= we_temp w /\ all_nonneg (we_sol w) /\ fresh_air_below p lo hi V w) -> lo <= ta <= hi ->
  steady_mass p {| we_wind := 0; we_temp := out; we_sol := [] |} base <= tm ->
  forall j n, nth_error ns j = Some n -> fst n <= design_load p V out base (heat_at p tt (k + Z.of_nat j)).
Proof.
  intros HP HO HM HR HS HD HE HB H1 H2. set (wo := {| we_wind := 0; we_temp := out; we_sol := [] |}).
  destruct (envelope_signs p HP) as (A1 & A2 & (A3 & A4) & A5). pose proof (steady_surface_eq p HP wo base) as E1. destruct (steady_mass_eq p HP wo base) as [E2 E3]. pose proof (transmission_eq p HP wo base) as E4.
  pose proof (steady_between p HP wo base) as SB. change (we_temp wo) with out in E1, E2, E3, E4, SB. specialize (SB (proj1 HB)).
  set (s1 := steady_surface p wo base) in *. set (m1 := steady_mass p wo base) in *. clearbody s1 m1.
  induction 1 as [k tm ta ws|k tm ta w ws m a qh qc ns S R IH]; intros HW HA H0 j n En; [destruct j; discriminate En|].
  destruct (HW w (or_introl eq_refl)) as (W1 & W2 & W3).
  destruct (sources_at p tt k w ta HP HS HD W2) as (G1 & G2 & G3).
  assert (FL : flow_at p tt k = 0 \/ flow_at p tt k = ve_supplyRate (pa_ventilation p)) by (unfold flow_at; destruct (open_hour tt k); auto).
  assert (BL : base <= heat_at p tt k) by (unfold heat_at; destruct (occupied tt k); assumption).
  assert (SU : out <= rc_sup (rc_at p tt k w ta)).
  { change (out <= sp_mixed p (flow_at p tt k) (we_wind w) (we_temp w) ta). apply mixed_ge; auto; [apply flow_at_nonneg, HP|]. apply supplied_ge; auto. lra. }
  assert (VV : rc_ve (rc_at p tt k w ta) <= 0.34 * V).
  { change (0.34 * sp_total p (flow_at p tt k) (we_wind w) (we_temp w) ta <= 0.34 * V). pose proof (W3 _ ta FL HA). lra. }
  assert (B1 : sp_is p * (base - s1) + sp_windows p * (out - s1) + sp_ms p * (m1 - s1) = 0) by lra.
  destruct (load_step (rc_at p tt k w ta) _ _ _ _ _ _ _ base out s1 m1 (0.34 * V) (rc_at_positive p tt k w ta HP) HM (ordered_at p tt k HO) G1 G2 G3 W1 SU BL (proj1 HB) VV B1 E3 H0 S) as [KM KQ].
  destruct j as [|j].
  - cbn in En. injection En as <-. replace (k + Z.of_nat 0)%Z with k by lia. cbn [fst]. unfold design_load.
    change (rc_is (rc_at p tt k w ta)) with (sp_is p) in KQ. pose proof (rc_at_positive p tt k w ta HP) as (VP & _).
    set (i := heat_at p tt k) in *. clearbody i.
    assert (Z1 : 0 <= 0.34 * V * (i - out)) by (apply Rmult_le_pos; lra). assert (Z2 : 0 <= sp_is p * (i - base)) by (apply Rmult_le_pos; lra). assert (Z3 : 0 <= sp_is p * (base - s1)) by (apply Rmult_le_pos; lra).
    destruct KQ as [-> | KQ]; lra.
  - replace (k + Z.of_nat (Datatypes.S j))%Z with (k + 1 + Z.of_nat j)%Z by lia.
    exact (IH (fun v Hv => HW v (or_intror Hv)) (air_enclosed p lo hi tt HO HE k _ _ _ _ _ _ S) KM j n En).
Qed.
Lemma C100_l p lo hi tt V out base ws raw r :
  physical p -> ordered_setpoints p -> mass_slow p -> recovery_ok p -> sources_ok p -> daylit p -> timetable_of p tt -> encloses lo hi p ->
  out <= base <= 20 -> base <= ht_tempOcc (pa_heating p) -> base <= ht_tempUnocc (pa_heating p) ->
  (forall w, In w ws -> out <= we_temp w /\ all_nonneg (we_sol w) /\ fresh_air_below p lo hi V w) ->
  simulateRaw (map_params Fin p) (map (map_weather Fin) ws) no_ratios = Ok (raw, r) ->
  forall k h, nth_error raw k = Some h -> exists qh, hr_Qneed_ht h = Fin qh /\ qh <= design_load p V out base (heat_at p tt (Z.of_nat k)).
Proof.
  intros HP HO HM HR HS HD HT HE HB H1 H2 HW H k h K.
  destruct (C04_year_l p tt _ raw r HP HO HT H) as (ns & NS & E).
  apply (map_nth_error (fun h => (hr_Qneed_ht h, hr_Qneed_cl h))) in K. rewrite E, nth_error_map in K. destruct (nth_error ns k) as [u|] eqn:Ea; [|discriminate K].
  cbn in K. injection K as K1 K2. exists (fst u). split; [auto|].
  assert (M0 : steady_mass p {| we_wind := 0; we_temp := out; we_sol := [] |} base <= 20).
  { destruct (steady_between p HP {| we_wind := 0; we_temp := out; we_sol := [] |} base (proj1 HB)) as (Q & _). lra. }
  exact (load_hours p lo hi tt V out base HP HO HM HR HS HD HE HB H1 H2 0%Z 20 20 ws ns NS HW (proj1 HE) M0 k u Ea).
Qed.
