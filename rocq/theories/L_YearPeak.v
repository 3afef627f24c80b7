(** The cooling load. *)
From Coq Require Import Reals Lra Psatz ZArith List Lia.
From Verif Require Import Base Num Xr M_Params M_Hourly M_Map S_RC S_Physical S_Network S_Year S_HourSpec S_Balance S_Compare S_YearCompare S_YearClimate S_YearStable S_YearLoad
  L_Xr L_HourlyR L_HourlySpec L_HourlyFin L_HourlyFin2 L_HourlyShape L_HourlyRun L_HourlyThm L_HourlyThm2 L_HourlyBalance L_Compare L_Compare2 L_YearCompare L_YearCompare2 L_YearClimate L_YearStable L_YearLoad.
Import ListNotations.
Open Scope R_scope.

(** The warmest steady state: air at [top], [out] degrees outside, gains [gs] and [gm] at surface and mass. *)
Section Peak.
Variables (is w o ms em top out gs gm : R).
Hypothesis (Hi : 0 < is) (Hw : 0 <= w) (Ho : 0 < o < ms) (Em : em = o * ms / (ms - o)).
Let r : R := (ms - o) / ms.
Definition peak_surface : R := (is * top + (w + o) * out + gs + r * gm) / (is + w + o).
Definition peak_mass : R := r * peak_surface + (1 - r) * out + r * gm / ms.
Lemma peak_r : 0 < r < 1.
Proof.
  assert (E : r = 1 - o * / ms) by (unfold r; field; lra). rewrite E.
  assert (I : 0 < / ms) by (apply Rinv_0_lt_compat; lra). assert (J : ms * / ms = 1) by (field; lra).
  assert (0 < o * / ms) by (apply Rmult_lt_0_compat; lra). assert (0 < (ms - o) * / ms) by (apply Rmult_lt_0_compat; lra). lra.
Qed.
Lemma peak_mass_eq : ms * (peak_surface - peak_mass) + em * (out - peak_mass) + gm = 0.
Proof. unfold peak_mass. generalize peak_surface. intros s. rewrite Em. unfold r. field. lra. Qed.
Lemma peak_surface_eq : is * (top - peak_surface) + w * (out - peak_surface) + ms * (peak_mass - peak_surface) + gs = 0.
Proof.
  assert (E : (is + w + o) * peak_surface = is * top + (w + o) * out + gs + r * gm) by (unfold peak_surface; field; lra).
  assert (F : ms * (peak_mass - peak_surface) = o * (out - peak_surface) + r * gm) by (unfold peak_mass; generalize peak_surface; intros s; unfold r; field; lra).
  lra.
Qed.
Lemma peak_ge t : 0 <= gs -> 0 <= gm -> t <= top -> t <= out -> t <= peak_mass.
Proof.
  intros G1 G2 T O. pose proof peak_r as R.
  assert (RG : 0 <= r * gm) by (apply Rmult_le_pos; lra).
  assert (E : (is + w + o) * (peak_surface - t) = is * (top - t) + (w + o) * (out - t) + gs + r * gm) by (unfold peak_surface; field; lra).
  assert (S : t <= peak_surface).
  { assert (0 <= is * (top - t)) by (apply Rmult_le_pos; lra). assert (0 <= (w + o) * (out - t)) by (apply Rmult_le_pos; lra).
    destruct (Rle_lt_dec t peak_surface) as [L|L]; [exact L|]. assert (0 < (is + w + o) * (t - peak_surface)) by (apply Rmult_lt_0_compat; lra). lra. }
  unfold peak_mass. assert (0 <= r * (peak_surface - t)) by (apply Rmult_le_pos; lra). assert (0 <= (1 - r) * (out - t)) by (apply Rmult_le_pos; lra).
  assert (0 <= r * gm / ms) by (apply Rmult_le_pos; [exact RG|left; apply Rinv_0_lt_compat; lra]). lra.
Qed.
Lemma peak_flow : 0 <= gs -> 0 <= gm -> is * (peak_surface - top) <= 1 / (1 / is + 1 / (w + o)) * (out - top) + gs + gm.
Proof.
  intros G1 G2. pose proof peak_r as R. set (f := is / (is + w + o)).
  assert (F : 0 <= f <= 1).
  { assert (I : 0 < / (is + w + o)) by (apply Rinv_0_lt_compat; lra). assert (J : (is + w + o) * / (is + w + o) = 1) by (field; lra). unfold f, Rdiv.
    assert (0 <= is * / (is + w + o)) by (apply Rmult_le_pos; lra). assert (0 <= (w + o) * / (is + w + o)) by (apply Rmult_le_pos; lra). lra. }
  assert (E : is * (peak_surface - top) = 1 / (1 / is + 1 / (w + o)) * (out - top) + f * (gs + r * gm)) by (unfold peak_surface, f; field; lra).
  rewrite E. assert (0 <= (1 - r) * gm) by (apply Rmult_le_pos; lra). assert (0 <= r * gm) by (apply Rmult_le_pos; lra).
  assert (0 <= (1 - f) * (gs + r * gm)) by (apply Rmult_le_pos; lra). lra.
Qed.
End Peak.

(** A controlled hour that starts at most as warm as the warmest steady state. *)
Lemma peak_step x lo hi m0 m a qh qc top out s1 m1 V ga gs gm : rc_positive x -> slow_net x -> lo <= hi ->
  rc_phi_ia x <= ga -> rc_phi_st x <= gs -> rc_phi_m x <= gm -> rc_out x <= out -> rc_sup x <= out -> hi <= top -> top <= out -> rc_ve x <= V ->
  rc_is x * (top - s1) + rc_w x * (out - s1) + rc_ms x * (m1 - s1) + gs = 0 -> rc_ms x * (s1 - m1) + rc_em x * (out - m1) + gm = 0 -> m0 <= m1 ->
  iso_step x lo hi m0 m a qh qc -> m <= m1 /\ (qc = 0 \/ qc <= V * (out - hi) + rc_is x * (s1 - hi) + ga).
Proof.
  intros HX HC LH G1 G2 G3 HO HS HB HBO HV E1 E2 H0 ((f & (u & v & F) & T) & (s & B) & P1 & P2 & P3).
  pose proof HX as (X1 & X2 & X3 & X4 & X5 & X6). pose proof B as (B1 & B2 & B3). cbv zeta in B1, B2, B3.
  assert (AL : a <= hi) by (rewrite T; apply (clamp_between lo hi f LH)).
  assert (W1 : 0 <= rc_w x * (out - rc_out x)) by (apply Rmult_le_pos; lra). assert (W2 : 0 <= rc_em x * (out - rc_out x)) by (apply Rmult_le_pos; lra).
  destruct (warm_mass (rc_is x) (rc_w x) (rc_ms x) (rc_em x) (rc_C x / 3.6) X2 X3 X4 X5 HC (top - a) (s1 - s) (m1 - m0) (m1 - m)
    (rc_w x * (out - rc_out x) + (gs - rc_phi_st x)) (rc_em x * (out - rc_out x) + (gm - rc_phi_m x))) as [K1 K2]; try lra.
  split; [lra|]. destruct P3 as [-> | ->]; [|left; reflexivity].
  destruct (Rle_lt_dec hi a) as [L|L].
  - right. assert (EA : a = hi) by lra. rewrite EA in B1. assert (V1 : 0 <= rc_ve x * (out - rc_sup x)) by (apply Rmult_le_pos; lra).
    assert (V2 : 0 <= (V - rc_ve x) * (out - hi)) by (apply Rmult_le_pos; lra). assert (V3 : 0 <= rc_is x * (s1 - s)) by (apply Rmult_le_pos; lra). lra.
  - left. assert (A : f <= a) by (revert T L; unfold clamp, Rmax, Rmin; repeat destruct (Rle_dec _ _); intros; lra).
    pose proof (plant_more x _ _ _ _ _ _ _ _ _ HX HC F B A). lra.
Qed.

(** Bounds of the gains at the three nodes. *)
Section Nodes.
Variables (p : params_t R) (S I : R).
Let notAir : R := (1 - ss_phiSolFraction (pa_settings p)) * S + (1 - ss_phiIntFraction (pa_settings p)) * I.
Definition most_air : R := ss_phiSolFraction (pa_settings p) * S + ss_phiIntFraction (pa_settings p) * I.
Definition most_surface : R := (st_totalAreaPerFloorArea (pa_structure p) - sp_mass_area (sp_capacity p) - sp_windows p / sp_h_ms p) / st_totalAreaPerFloorArea (pa_structure p) * notAir.
Definition most_mass : R := sp_mass_area (sp_capacity p) / st_totalAreaPerFloorArea (pa_structure p) * notAir.
Hypothesis (HP : physical p) (HS : sources_ok p) (HSI : 0 <= S /\ 0 <= I).
Lemma share_signs : let t := st_totalAreaPerFloorArea (pa_structure p) in
  0 <= (t - sp_mass_area (sp_capacity p) - sp_windows p / sp_h_ms p) / t /\ 0 <= sp_mass_area (sp_capacity p) / t /\
  (t - sp_mass_area (sp_capacity p) - sp_windows p / sp_h_ms p) / t + sp_mass_area (sp_capacity p) / t <= 1.
Proof.
  cbv zeta. pose proof (phy_tapfa p HP) as TP. pose proof (so_surface p HS) as SF. destruct (envelope_signs p HP) as (A1 & A2 & (A3 & A4) & A5).
  assert (AM : 0 <= sp_mass_area (sp_capacity p)).
  { unfold sp_mass_area, clamp. pose proof (Rmax_l 0 (Rmin 1 ((sp_capacity p - 165) / 95))). pose proof (Rmax_l 0 (Rmin 1 ((sp_capacity p - 260) / 110))). lra. }
  assert (HM : 0 < sp_h_ms p).
  { unfold sp_ms in A4. assert (Q : 0 < sp_h_ms p * sp_mass_area (sp_capacity p)) by lra.
    destruct (Rle_lt_dec (sp_h_ms p) 0) as [L|L]; [|exact L]. assert (0 <= - sp_h_ms p * sp_mass_area (sp_capacity p)) by (apply Rmult_le_pos; lra). lra. }
  assert (WH : 0 <= sp_windows p / sp_h_ms p) by (apply Rmult_le_pos; [exact A2|left; apply Rinv_0_lt_compat, HM]).
  set (wh := sp_windows p / sp_h_ms p) in *. set (am := sp_mass_area (sp_capacity p)) in *. set (t := st_totalAreaPerFloorArea (pa_structure p)) in *. clearbody wh am t.
  assert (IV : 0 < / t) by (apply Rinv_0_lt_compat, TP). assert (IT : t * / t = 1) by (field; lra). unfold Rdiv.
  split; [apply Rmult_le_pos; lra|]. split; [apply Rmult_le_pos; lra|]. assert (0 <= wh * / t) by (apply Rmult_le_pos; lra). lra.
Qed.
Lemma most_total : 0 <= most_surface /\ 0 <= most_mass /\ most_air + most_surface + most_mass <= S + I.
Proof.
  destruct share_signs as (A & B & C). pose proof (so_fint p HS) as FI. pose proof (so_fsol p HS) as FS. unfold most_surface, most_mass, most_air.
  set (a := (st_totalAreaPerFloorArea (pa_structure p) - sp_mass_area (sp_capacity p) - sp_windows p / sp_h_ms p) / st_totalAreaPerFloorArea (pa_structure p)) in *.
  set (b := sp_mass_area (sp_capacity p) / st_totalAreaPerFloorArea (pa_structure p)) in *. clearbody a b.
  assert (N : 0 <= notAir) by (unfold notAir; apply Rplus_le_le_0_compat; apply Rmult_le_pos; lra).
  split; [apply Rmult_le_pos; lra|]. split; [apply Rmult_le_pos; lra|].
  assert (0 <= (1 - (a + b)) * notAir) by (apply Rmult_le_pos; lra). unfold notAir in *. lra.
Qed.
Lemma gains_at tt k w ta : gains_below p tt S I w ->
  let x := rc_at p tt k w ta in rc_phi_ia x <= most_air /\ rc_phi_st x <= most_surface /\ rc_phi_m x <= most_mass.
Proof.
  intros (G1 & G2). specialize (G2 k). cbv zeta. destruct share_signs as (A & B & C). pose proof (so_fint p HS) as FI. pose proof (so_fsol p HS) as FS.
  unfold rc_at, hour_rc, most_surface, most_mass, most_air. cbn [rc_phi_ia rc_phi_st rc_phi_m].
  set (so := sp_solar p (we_sol w)) in *. set (si := sp_internal p (equip_at p tt k) (lights_at p tt k) (we_sol w)) in *. clearbody so si.
  assert (N : (1 - ss_phiSolFraction (pa_settings p)) * so + (1 - ss_phiIntFraction (pa_settings p)) * si <= notAir).
  { unfold notAir. apply Rplus_le_compat; apply Rmult_le_compat_l; lra. }
  split; [apply Rplus_le_compat; apply Rmult_le_compat_l; lra|]. split; apply Rmult_le_compat_l; assumption.
Qed.
End Nodes.

Lemma peak_hours p lo hi tt V S I out top : physical p -> ordered_setpoints p -> mass_slow p -> recovery_ok p -> sources_ok p -> encloses lo hi p ->
  20 <= top <= out -> cl_tempOcc (pa_cooling p) <= top -> cl_tempUnocc (pa_cooling p) <= top -> ve_preheat (pa_ventilation p) <= out -> 0 <= S -> 0 <= I ->
  forall k tm ta ws ns, iso_hours p tt k tm ta ws ns -> (forall w, In w ws -> we_temp w <= out /\ gains_below p tt S I w /\ fresh_air_below p lo hi V w) -> lo <= ta <= hi ->
  tm <= peak_mass (sp_is p) (sp_windows p) (sp_opaque p) (sp_ms p) top out (most_surface p S I) (most_mass p S I) ->
  forall j n, nth_error ns j = Some n -> snd n <= cooling_load p V (S + I) out top (cool_at p tt (k + Z.of_nat j)).
Proof.
  intros HP HO HM HR HS HE HB H1 H2 HPH HS0 HI0. destruct (envelope_signs p HP) as (A1 & A2 & A3 & A5).
  destruct (most_total p S I HP HS (conj HS0 HI0)) as (M1 & M2 & M3).
  pose proof (peak_mass_eq (sp_is p) (sp_windows p) (sp_opaque p) (sp_ms p) (sp_em p) top out (most_surface p S I) (most_mass p S I) A3 eq_refl) as E2.
  pose proof (peak_surface_eq (sp_is p) (sp_windows p) (sp_opaque p) (sp_ms p) top out (most_surface p S I) (most_mass p S I) A1 A2 A3) as E1.
  pose proof (peak_flow (sp_is p) (sp_windows p) (sp_opaque p) (sp_ms p) top out (most_surface p S I) (most_mass p S I) A1 A2 A3 M1 M2) as E4.
  fold (transmission p) in E4.
  set (s1 := peak_surface _ _ _ _ _ _ _ _) in *. set (m1 := peak_mass _ _ _ _ _ _ _ _) in *. clearbody s1 m1.
  induction 1 as [k tm ta ws|k tm ta w ws m a qh qc ns St R IH]; intros HW HA H0 j n En; [destruct j; discriminate En|].
  destruct (HW w (or_introl eq_refl)) as (W1 & W2 & W3).
  destruct (gains_at p S I HP HS tt k w ta W2) as (G1 & G2 & G3).
  assert (FL : flow_at p tt k = 0 \/ flow_at p tt k = ve_supplyRate (pa_ventilation p)) by (unfold flow_at; destruct (open_hour tt k); auto).
  assert (BL : cool_at p tt k <= top) by (unfold cool_at; destruct (occupied tt k); assumption).
  assert (SU : rc_sup (rc_at p tt k w ta) <= out).
  { change (sp_mixed p (flow_at p tt k) (we_wind w) (we_temp w) ta <= out). apply mixed_le; auto; [apply flow_at_nonneg, HP|]. apply supplied_le; auto. lra. }
  assert (VV : rc_ve (rc_at p tt k w ta) <= 0.34 * V).
  { change (0.34 * sp_total p (flow_at p tt k) (we_wind w) (we_temp w) ta <= 0.34 * V). pose proof (W3 _ ta FL HA). lra. }
  destruct (peak_step (rc_at p tt k w ta) _ _ _ _ _ _ _ top out s1 m1 (0.34 * V) _ _ _ (rc_at_positive p tt k w ta HP) HM (ordered_at p tt k HO) G1 G2 G3 W1 SU BL (proj2 HB) VV E1 E2 H0 St) as [KM KQ].
  destruct j as [|j].
  - cbn in En. injection En as <-. replace (k + Z.of_nat 0)%Z with k by lia. cbn [snd]. unfold cooling_load.
    change (rc_is (rc_at p tt k w ta)) with (sp_is p) in KQ. pose proof (rc_at_positive p tt k w ta HP) as (VP & _).
    set (i := cool_at p tt k) in *. clearbody i.
    assert (TR : 0 <= transmission p).
    { unfold transmission. apply Rmult_le_pos; [lra|]. left. apply Rinv_0_lt_compat. apply Rplus_lt_0_compat; apply Rdiv_lt_0_compat; lra. }
    generalize dependent (transmission p). intros tr E4 TR.
    assert (Z1 : 0 <= 0.34 * V * (out - i)) by (apply Rmult_le_pos; lra). assert (Z2 : 0 <= sp_is p * (top - i)) by (apply Rmult_le_pos; lra). assert (Z3 : 0 <= tr * (out - top)) by (apply Rmult_le_pos; lra).
    destruct KQ as [-> | KQ]; lra.
  - replace (k + Z.of_nat (Datatypes.S j))%Z with (k + 1 + Z.of_nat j)%Z by lia.
    exact (IH (fun v Hv => HW v (or_intror Hv)) (air_enclosed p lo hi tt HO HE k _ _ _ _ _ _ St) KM j n En).
Qed.
Lemma C101_l p lo hi tt V S I out top ws raw r :
  physical p -> ordered_setpoints p -> mass_slow p -> recovery_ok p -> sources_ok p -> timetable_of p tt -> encloses lo hi p ->
  20 <= top <= out -> cl_tempOcc (pa_cooling p) <= top -> cl_tempUnocc (pa_cooling p) <= top -> ve_preheat (pa_ventilation p) <= out -> 0 <= S -> 0 <= I ->
  (forall w, In w ws -> we_temp w <= out /\ gains_below p tt S I w /\ fresh_air_below p lo hi V w) ->
  simulateRaw (map_params Fin p) (map (map_weather Fin) ws) no_ratios = Ok (raw, r) ->
  forall k h, nth_error raw k = Some h -> exists qc, hr_Qneed_cl h = Fin qc /\ qc <= cooling_load p V (S + I) out top (cool_at p tt (Z.of_nat k)).
Proof.
  intros HP HO HM HR HS HT HE HB H1 H2 HPH HS0 HI0 HW H k h K.
  destruct (C04_year_l p tt _ raw r HP HO HT H) as (ns & NS & E).
  apply (map_nth_error (fun h => (hr_Qneed_ht h, hr_Qneed_cl h))) in K. rewrite E, nth_error_map in K. destruct (nth_error ns k) as [u|] eqn:Ea; [|discriminate K].
  cbn in K. injection K as K1 K2. exists (snd u). split; [auto|].
  destruct (envelope_signs p HP) as (A1 & A2 & A3 & A5). destruct (most_total p S I HP HS (conj HS0 HI0)) as (M1 & M2 & M3).
  assert (M0 : 20 <= peak_mass (sp_is p) (sp_windows p) (sp_opaque p) (sp_ms p) top out (most_surface p S I) (most_mass p S I)) by (apply peak_ge; lra).
  exact (peak_hours p lo hi tt V S I out top HP HO HM HR HS HE HB H1 H2 HPH HS0 HI0 0%Z 20 20 ws ns NS HW (proj1 HE) M0 k u Ea).
Qed.
