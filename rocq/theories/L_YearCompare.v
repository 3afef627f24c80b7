(** A year with more appliances: every hour needs no more heating and no less cooling. *)
From Coq Require Import Reals Lra Psatz ZArith List Lia.
From Verif Require Import Base Num Xr M_Params M_Hourly M_Map S_RC S_Physical S_Network S_Year S_HourSpec S_Balance S_Compare S_YearCompare
  L_Xr L_HourlyR L_HourlySpec L_HourlyFin L_HourlyFin2 L_HourlyShape L_HourlyRun L_HourlyThm L_HourlyThm2 L_Compare L_Compare2.
Import ListNotations.
Open Scope R_scope.

Lemma physical_appliances p x y : physical p -> physical (set_appliances p x y).
Proof. intros []. constructor; assumption. Qed.
Lemma clamp_between lo hi f : lo <= hi -> lo <= clamp lo hi f <= hi.
Proof. intros H. unfold clamp. split; [apply Rmax_l|]. apply Rmax_lub; [exact H|apply Rmin_l]. Qed.

Lemma Rsum_step a l : Rsum (a :: l) = a + Rsum l. Proof. reflexivity. Qed.

Section Year.
Variables (p : params_t R) (x y lo hi : R) (tt : timetable).
Let q := set_appliances p x y.
Hypothesis (HP : physical p) (HO : ordered_setpoints p) (HM : mass_slow p) (SO : sources_ok p).
Hypothesis (OX : bu_elecApplianceOcc (pa_building p) <= x) (OY : bu_elecApplianceUnocc (pa_building p) <= y) (HE : encloses lo hi p).

Lemma equip_more k : equip_at p tt k <= equip_at q tt k.
Proof. unfold equip_at. destruct (occupied tt k); assumption. Qed.
Lemma setpoints_ordered k : heat_at p tt k <= cool_at p tt k.
Proof. destruct HO. unfold heat_at, cool_at. destruct (occupied tt k); lra. Qed.
Lemma air_enclosed k rc m0 m a qh qc : iso_step rc (heat_at p tt k) (cool_at p tt k) m0 m a qh qc -> lo <= a <= hi.
Proof.
  intros ((f & _ & ->) & _). pose proof (clamp_between _ _ f (setpoints_ordered k)) as K. destruct HE as (_ & A & B & C & D).
  assert (lo <= heat_at p tt k) by (unfold heat_at; destruct (occupied tt k); assumption).
  assert (cool_at p tt k <= hi) by (unfold cool_at; destruct (occupied tt k); assumption). lra.
Qed.

Section Hour.
Variables (k : Z) (w : weather R) (ta ta' : R).
Hypothesis (HW : steady_leak p lo hi w) (HA : lo <= ta <= hi) (HA' : lo <= ta' <= hi).
Let n := rc_at p tt k w ta.
Let n' := rc_at q tt k w ta'.
Let gains := equip_at q tt k - equip_at p tt k.
Lemma nets : rc_positive n /\ same_net n n' /\ slow_net n.
Proof.
  split; [exact (rc_at_positive p tt k w ta HP)|]. split; [|exact HM].
  assert (L : sp_exfiltration p (flow_at p tt k) (we_wind w) (we_temp w) ta' = sp_exfiltration p (flow_at p tt k) (we_wind w) (we_temp w) ta).
  { apply HW; auto. unfold flow_at. destruct (open_hour tt k); auto. }
  assert (E : sp_envelope p (flow_at p tt k) (we_wind w) (we_temp w) ta' = sp_envelope p (flow_at p tt k) (we_wind w) (we_temp w) ta) by (unfold sp_envelope; rewrite L; reflexivity).
  assert (T : sp_total p (flow_at p tt k) (we_wind w) (we_temp w) ta' = sp_total p (flow_at p tt k) (we_wind w) (we_temp w) ta) by (unfold sp_total; rewrite E; reflexivity).
  constructor; try reflexivity.
  - change (0.34 * sp_total p (flow_at p tt k) (we_wind w) (we_temp w) ta' = 0.34 * sp_total p (flow_at p tt k) (we_wind w) (we_temp w) ta). rewrite T. reflexivity.
  - change (sp_mixed p (flow_at p tt k) (we_wind w) (we_temp w) ta' = sp_mixed p (flow_at p tt k) (we_wind w) (we_temp w) ta). unfold sp_mixed. rewrite T, E. reflexivity.
Qed.
Lemma shares : rc_phi_ia n <= rc_phi_ia n' /\ rc_phi_st n <= rc_phi_st n' /\ rc_phi_m n <= rc_phi_m n' /\
  rc_phi_ia n' - rc_phi_ia n + (rc_phi_st n' - rc_phi_st n) + (rc_phi_m n' - rc_phi_m n) <= gains.
Proof.
  pose proof (so_fint p SO) as F. pose proof (so_surface p SO) as SU. pose proof (equip_more k) as Q. pose proof (phy_tapfa p HP) as PT.
  set (f := ss_phiIntFraction (pa_settings p)) in *. set (T := st_totalAreaPerFloorArea (pa_structure p)) in *.
  assert (M : 2.5 <= sp_mass_area (sp_capacity p)) by (unfold sp_mass_area, clamp; pose proof (Rmax_l 0 (Rmin 1 ((sp_capacity p - 165) / 95))); pose proof (Rmax_l 0 (Rmin 1 ((sp_capacity p - 260) / 110))); lra).
  assert (W : 0 <= sp_windows p / sp_h_ms p) by (destruct nets as ((_ & _ & X & _) & _); change (0 <= sp_windows p) in X; pose proof (phy_hci p HP); pose proof (phy_hri p HP); apply Rmult_le_pos; [exact X|apply Rlt_le, Rinv_0_lt_compat; unfold sp_h_ms; lra]).
  set (am := sp_mass_area (sp_capacity p)) in *. set (wh := sp_windows p / sp_h_ms p) in *.
  assert (G : 0 <= gains) by (unfold gains; lra).
  assert (D1 : rc_phi_ia n' - rc_phi_ia n = f * gains).
  { change (ss_phiSolFraction (pa_settings p) * sp_solar p (we_sol w) + f * (equip_at q tt k + sp_lights_on p (we_sol w) * lights_at p tt k * li_elecInternalGains (pa_lighting p))
      - (ss_phiSolFraction (pa_settings p) * sp_solar p (we_sol w) + f * (equip_at p tt k + sp_lights_on p (we_sol w) * lights_at p tt k * li_elecInternalGains (pa_lighting p))) = f * gains). unfold gains. ring. }
  assert (D2 : rc_phi_st n' - rc_phi_st n = (T - am - wh) / T * ((1 - f) * gains)).
  { change ((T - am - wh) / T * ((1 - ss_phiSolFraction (pa_settings p)) * sp_solar p (we_sol w) + (1 - f) * (equip_at q tt k + sp_lights_on p (we_sol w) * lights_at p tt k * li_elecInternalGains (pa_lighting p)))
      - (T - am - wh) / T * ((1 - ss_phiSolFraction (pa_settings p)) * sp_solar p (we_sol w) + (1 - f) * (equip_at p tt k + sp_lights_on p (we_sol w) * lights_at p tt k * li_elecInternalGains (pa_lighting p))) = (T - am - wh) / T * ((1 - f) * gains)). unfold gains. ring. }
  assert (D3 : rc_phi_m n' - rc_phi_m n = am / T * ((1 - f) * gains)).
  { change (am / T * ((1 - ss_phiSolFraction (pa_settings p)) * sp_solar p (we_sol w) + (1 - f) * (equip_at q tt k + sp_lights_on p (we_sol w) * lights_at p tt k * li_elecInternalGains (pa_lighting p)))
      - am / T * ((1 - ss_phiSolFraction (pa_settings p)) * sp_solar p (we_sol w) + (1 - f) * (equip_at p tt k + sp_lights_on p (we_sol w) * lights_at p tt k * li_elecInternalGains (pa_lighting p))) = am / T * ((1 - f) * gains)). unfold gains. ring. }
  rewrite D1, D2, D3. revert D1 D2 D3. generalize (rc_phi_ia n) (rc_phi_ia n') (rc_phi_st n) (rc_phi_st n') (rc_phi_m n) (rc_phi_m n'). intros u1 u2 u3 u4 u5 u6 D1 D2 D3.
  assert (K : 0 <= (1 - f) * gains) by (apply Rmult_le_pos; lra). assert (TI : 0 < / T) by (apply Rinv_0_lt_compat; lra).
  assert (0 <= f * gains) by (apply Rmult_le_pos; lra).
  assert (0 <= (T - am - wh) / T * ((1 - f) * gains)) by (apply Rmult_le_pos; [apply Rmult_le_pos; lra|lra]).
  assert (0 <= am / T * ((1 - f) * gains)) by (apply Rmult_le_pos; [apply Rmult_le_pos; lra|lra]).
  assert (0 <= wh / T * ((1 - f) * gains)) by (apply Rmult_le_pos; [apply Rmult_le_pos; lra|lra]).
  assert ((T - am - wh) / T * ((1 - f) * gains) + am / T * ((1 - f) * gains) + wh / T * ((1 - f) * gains) = (1 - f) * gains) by (field; lra).
  clearbody gains. lra.
Qed.
Lemma hour_compare m0 m m0' m' a a' qh qc qh' qc' : m0 <= m0' ->
  iso_step n (heat_at p tt k) (cool_at p tt k) m0 m a qh qc -> iso_step n' (heat_at p tt k) (cool_at p tt k) m0' m' a' qh' qc' ->
  m <= m' /\ qh' <= qh /\ qc <= qc' /\ (qh - qh') + (qc' - qc) <= gains - sp_capacity p / 3.6 * ((m' - m) - (m0' - m0)).
Proof.
  intros D S S'. destruct nets as (A & B & C). destruct shares as (G1 & G2 & G3 & G4).
  destruct (steps_warmer n n' _ _ _ _ _ _ _ _ _ _ _ _ _ _ A B C G1 G2 G3 D (Rle_refl _) (Rle_refl _) S S') as [KA KM].
  destruct (steps_less n n' _ _ _ _ _ _ _ _ _ _ _ _ A B C (setpoints_ordered k) G1 G2 G3 D S S') as [K1 K2].
  split; [exact KM|]. split; [exact K1|]. split; [exact K2|].
  destruct S as (_ & (s & E) & _). destruct S' as (_ & (s' & E') & _).
  assert (GS : 0 <= rc_phi_st n' - rc_phi_st n) by lra. assert (GM : 0 <= rc_phi_m n' - rc_phi_m n) by lra.
  destruct (masses_mono n n' A B C _ _ _ _ _ _ _ _ _ _ E E' KA D GS GM) as [KS _].
  destruct (balance_diff n n' B _ _ _ _ _ _ _ _ _ _ E E') as (E1 & E2 & E3). destruct A as (X1 & X2 & X3 & X4 & X5 & X6).
  change (rc_C n) with (sp_capacity p) in E3.
  assert (0 <= rc_ve n * (a' - a)) by (apply Rmult_le_pos; lra). assert (0 <= rc_w n * (s' - s)) by (apply Rmult_le_pos; lra).
  assert (0 <= rc_em n * ((m0' - m0 + (m' - m)) / 2)) by (apply Rmult_le_pos; lra).
  revert E1 E2 E3 H H0 H1 G4. clearbody gains. clear - n. generalize (rc_ve n) (rc_is n) (rc_w n) (rc_ms n) (rc_em n) (sp_capacity p) (rc_phi_ia n) (rc_phi_ia n') (rc_phi_st n) (rc_phi_st n') (rc_phi_m n) (rc_phi_m n').
  intros. lra.
Qed.
End Hour.

Fixpoint added (k : Z) (n : nat) : R := match n with O => 0 | S j => equip_at q tt k - equip_at p tt k + added (k + 1) j end.

Lemma hours_compare k tm ta ws ns : iso_hours p tt k tm ta ws ns -> forall tm' ta' ns', iso_hours q tt k tm' ta' ws ns' -> length ns = length ns' ->
  (forall w, In w ws -> steady_leak p lo hi w) -> lo <= ta <= hi -> lo <= ta' <= hi -> tm <= tm' ->
  Forall2 (fun a b => fst b <= fst a /\ snd a <= snd b) ns ns' /\
  Rsum (map fst ns) - Rsum (map fst ns') + (Rsum (map snd ns') - Rsum (map snd ns)) <= added k (length ns) + sp_capacity p / 3.6 * (tm' - tm).
Proof.
  assert (CP : 0 <= sp_capacity p / 3.6).
  { pose proof (rc_at_positive p tt 0 {| we_wind := 0; we_temp := 0; we_sol := nil |} 0 HP) as (_ & _ & _ & _ & _ & X6). change (rc_C (rc_at p tt 0 {| we_wind := 0; we_temp := 0; we_sol := nil |} 0)) with (sp_capacity p) in X6. lra. }
  induction 1 as [k tm ta ws|k tm ta w ws m a qh qc ns S R IH]; intros tm' ta' ns' H' L HW A A' D.
  - destruct ns'; [|discriminate L]. split; [constructor|]. cbn [map Rsum fold_right added length].
    assert (0 <= sp_capacity p / 3.6 * (tm' - tm)) by (apply Rmult_le_pos; lra). unfold Rsum. cbn. lra.
  - inversion H' as [|k2 tm2 ta2 w2 ws2 m' a' qh' qc' ns2 S' R' EQ1 EQ2 EQ3]; subst; [discriminate L|].
    change (heat_at q tt k) with (heat_at p tt k) in S'. change (cool_at q tt k) with (cool_at p tt k) in S'.
    destruct (hour_compare k w ta ta' (HW w (or_introl eq_refl)) A A' _ _ _ _ _ _ _ _ _ _ D S S') as (KM & K1 & K2 & K3).
    destruct (IH m' a' ns2 R' ltac:(cbn in L; lia) (fun v Hv => HW v (or_intror Hv)) (air_enclosed k _ _ _ _ _ _ S) (air_enclosed k _ _ _ _ _ _ S') KM) as [I1 I2].
    split; [constructor; [cbn; lra|exact I1]|]. cbn [map added length fst snd]. rewrite !(Rsum_step).
    revert I2 K3. clear. generalize (sp_capacity p / 3.6) (Rsum (map fst ns)) (Rsum (map fst ns2)) (Rsum (map snd ns)) (Rsum (map snd ns2)) (added (k + 1) (length ns)) (equip_at q tt k - equip_at p tt k). intros. lra.
Qed.
End Year.
