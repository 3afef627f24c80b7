(** Warmer years and higher set-points. *)
From Coq Require Import Reals Lra Psatz ZArith List Lia.
From Verif Require Import Base Num Xr M_Params M_Hourly M_Map S_RC S_Physical S_Network S_Year S_HourSpec S_Balance S_Compare S_YearCompare S_YearClimate S_MonthlyClimate
  L_Xr L_HourlyR L_HourlySpec L_HourlyFin L_HourlyFin2 L_HourlyShape L_HourlyRun L_HourlyThm L_HourlyThm2 L_Compare L_Compare2 L_YearCompare L_YearCompare2.
Import ListNotations.
Open Scope R_scope.

(** A network with other outdoor and supply temperatures is one with other gains. *)
Definition recast (x x' : rc) : rc :=
  {| rc_ve := rc_ve x; rc_is := rc_is x; rc_w := rc_w x; rc_ms := rc_ms x; rc_em := rc_em x; rc_C := rc_C x; rc_out := rc_out x; rc_sup := rc_sup x;
     rc_phi_ia := rc_phi_ia x' + rc_ve x * (rc_sup x' - rc_sup x); rc_phi_st := rc_phi_st x' + rc_w x * (rc_out x' - rc_out x);
     rc_phi_m := rc_phi_m x' + rc_em x * (rc_out x' - rc_out x) |}.
Definition same_conductances (x x' : rc) : Prop :=
  rc_ve x' = rc_ve x /\ rc_is x' = rc_is x /\ rc_w x' = rc_w x /\ rc_ms x' = rc_ms x /\ rc_em x' = rc_em x /\ rc_C x' = rc_C x.
Lemma recast_balance x x' q m0 m s a : same_conductances x x' -> rc_balance x' q m0 m s a -> rc_balance (recast x x') q m0 m s a.
Proof.
  intros (E1 & E2 & E3 & E4 & E5 & E6) (A & B & C). cbv zeta in *. rewrite E1, E2 in A. rewrite E2, E3, E4 in B. rewrite E4, E5, E6 in C.
  unfold rc_balance, recast. cbn [rc_ve rc_is rc_w rc_ms rc_em rc_C rc_out rc_sup rc_phi_ia rc_phi_st rc_phi_m]. cbv zeta. repeat split; lra.
Qed.
Lemma recast_step x x' lo hi m0 m a qh qc : same_conductances x x' -> iso_step x' lo hi m0 m a qh qc -> iso_step (recast x x') lo hi m0 m a qh qc.
Proof.
  intros E ((f & (u & v & F) & T) & (s & B) & P). split; [|split; [|exact P]].
  - exists f. split; [exists u, v; exact (recast_balance _ _ _ _ _ _ _ E F)|exact T].
  - exists s. exact (recast_balance _ _ _ _ _ _ _ E B).
Qed.

Lemma supplied_mono p t t' : recovery_ok p -> t <= t' -> sp_supplied p t <= sp_supplied p t'.
Proof.
  intros [R1 R2] H. unfold sp_supplied. apply Rmax_lub; [apply Rmax_l|]. eapply Rle_trans; [|apply Rmax_r].
  apply Rplus_le_compat_r. apply Rmult_le_compat_l; lra.
Qed.

(** ** Warmer weather *)
Section Warmer.
Variables (p : params_t R) (lo hi : R) (tt : timetable).
Hypothesis (HP : physical p) (HO : ordered_setpoints p) (HM : mass_slow p) (HR : recovery_ok p) (HE : encloses lo hi p).

Section Hour.
Variables (k : Z) (w w' : weather R) (ta ta' : R).
Hypothesis (HW : warmer_hour w w') (HL : same_leak p lo hi w w') (HA : lo <= ta <= hi) (HA' : lo <= ta' <= hi).
Let n := rc_at p tt k w ta.
Let n' := rc_at p tt k w' ta'.
Lemma warmer_net : same_conductances n n' /\ rc_out n <= rc_out n' /\ rc_sup n <= rc_sup n' /\
  rc_phi_ia n' = rc_phi_ia n /\ rc_phi_st n' = rc_phi_st n /\ rc_phi_m n' = rc_phi_m n.
Proof.
  pose proof (rc_at_positive p tt k w ta HP) as (VP & _).
  pose proof (flow_nonneg p tt k HP) as FN.
  destruct HW as (W1 & W2 & W3).
  assert (L : sp_exfiltration p (flow_at p tt k) (we_wind w') (we_temp w') ta' = sp_exfiltration p (flow_at p tt k) (we_wind w) (we_temp w) ta).
  { symmetry. apply HL; auto. unfold flow_at. destruct (open_hour tt k); auto. }
  assert (E : sp_envelope p (flow_at p tt k) (we_wind w') (we_temp w') ta' = sp_envelope p (flow_at p tt k) (we_wind w) (we_temp w) ta) by (unfold sp_envelope; rewrite L; reflexivity).
  assert (T : sp_total p (flow_at p tt k) (we_wind w') (we_temp w') ta' = sp_total p (flow_at p tt k) (we_wind w) (we_temp w) ta) by (unfold sp_total; rewrite E; reflexivity).
  split. { repeat split; try reflexivity. change (0.34 * sp_total p (flow_at p tt k) (we_wind w') (we_temp w') ta' = 0.34 * sp_total p (flow_at p tt k) (we_wind w) (we_temp w) ta). rewrite T. reflexivity. }
  split; [exact W3|]. split.
  { change (sp_mixed p (flow_at p tt k) (we_wind w) (we_temp w) ta <= sp_mixed p (flow_at p tt k) (we_wind w') (we_temp w') ta'). unfold sp_mixed. rewrite T, E.
    change (0 < 0.34 * sp_total p (flow_at p tt k) (we_wind w) (we_temp w) ta) in VP.
    pose proof (envelope_nonneg p (flow_at p tt k) (we_wind w) (we_temp w) ta) as EN. pose proof (supply_nonneg p (flow_at p tt k) HP FN) as SN.
    pose proof (supplied_mono p _ _ HR W3) as SM.
    apply Rmult_le_compat_r; [apply Rlt_le, Rinv_0_lt_compat; lra|]. apply Rplus_le_compat; apply Rmult_le_compat_r; assumption. }
  unfold n', n, rc_at, hour_rc. cbn [rc_phi_ia rc_phi_st rc_phi_m]. rewrite W2. auto.
Qed.
Lemma warmer_compare m0 m m0' m' a a' qh qc qh' qc' : m0 <= m0' ->
  iso_step n (heat_at p tt k) (cool_at p tt k) m0 m a qh qc -> iso_step n' (heat_at p tt k) (cool_at p tt k) m0' m' a' qh' qc' ->
  m <= m' /\ qh' <= qh /\ qc <= qc'.
Proof.
  intros D S S'. destruct warmer_net as (C & O & U & G1 & G2 & G3).
  pose proof (rc_at_positive p tt k w ta HP) as X. fold n in X. pose proof X as (X1 & X2 & X3 & X4 & X5 & X6).
  apply (recast_step n n' _ _ _ _ _ _ _ C) in S'. set (y := recast n n') in *.
  assert (N : same_net n y) by (constructor; reflexivity). assert (SL : slow_net n) by exact HM.
  assert (H1 : rc_phi_ia n <= rc_phi_ia y). { unfold y, recast. cbn [rc_phi_ia]. rewrite G1. assert (0 <= rc_ve n * (rc_sup n' - rc_sup n)) by (apply Rmult_le_pos; lra). lra. }
  assert (H2 : rc_phi_st n <= rc_phi_st y). { unfold y, recast. cbn [rc_phi_st]. rewrite G2. assert (0 <= rc_w n * (rc_out n' - rc_out n)) by (apply Rmult_le_pos; lra). lra. }
  assert (H3 : rc_phi_m n <= rc_phi_m y). { unfold y, recast. cbn [rc_phi_m]. rewrite G3. assert (0 <= rc_em n * (rc_out n' - rc_out n)) by (apply Rmult_le_pos; lra). lra. }
  split; [exact (proj2 (steps_warmer n y _ _ _ _ _ _ _ _ _ _ _ _ _ _ X N SL H1 H2 H3 D (Rle_refl _) (Rle_refl _) S S'))|].
  exact (steps_less n y _ _ _ _ _ _ _ _ _ _ _ _ X N SL (setpoints_ordered p tt HO k) H1 H2 H3 D S S').
Qed.
End Hour.

Lemma warmer_hours k tm ta ws ns : iso_hours p tt k tm ta ws ns -> forall ws' tm' ta' ns', iso_hours p tt k tm' ta' ws' ns' -> length ns = length ns' ->
  Forall2 (fun w w' => warmer_hour w w' /\ same_leak p lo hi w w') ws ws' -> lo <= ta <= hi -> lo <= ta' <= hi -> tm <= tm' ->
  Forall2 (fun a b => fst b <= fst a /\ snd a <= snd b) ns ns'.
Proof.
  induction 1 as [k tm ta ws|k tm ta w ws m a qh qc ns S R IH]; intros ws' tm' ta' ns' H' L HW A A' D.
  - destruct ns'; [constructor|discriminate L].
  - inversion H' as [|k2 tm2 ta2 w2 ws2 m' a' qh' qc' ns2 S' R' EQ1 EQ2 EQ3]; subst; [discriminate L|].
    inversion HW as [|u v us vs [W1 W2] W3]; subst.
    destruct (warmer_compare k w w2 ta ta' W1 W2 A A' _ _ _ _ _ _ _ _ _ _ D S S') as (KM & K1 & K2).
    constructor; [cbn; lra|].
    exact (IH ws2 m' a' ns2 R' ltac:(cbn in L; lia) W3 (air_enclosed p lo hi tt HO HE k _ _ _ _ _ _ S) (air_enclosed p lo hi tt HO HE k _ _ _ _ _ _ S') KM).
Qed.
End Warmer.

Lemma Forall2_nth {A B} (P : A -> B -> Prop) l l' : Forall2 P l l' -> forall k a b, nth_error l k = Some a -> nth_error l' k = Some b -> P a b.
Proof.
  induction 1 as [|u v us vs Q F IH]; intros [|k] a b Ea Eb; try discriminate Ea.
  - cbn in Ea, Eb. injection Ea as <-. injection Eb as <-. exact Q.
  - exact (IH k a b Ea Eb).
Qed.
Lemma C94_l p lo hi tt ws ws' raw raw' r r' :
  physical p -> ordered_setpoints p -> mass_slow p -> recovery_ok p -> timetable_of p tt -> encloses lo hi p ->
  Forall2 (fun w w' => warmer_hour w w' /\ same_leak p lo hi w w') ws ws' ->
  simulateRaw (map_params Fin p) (map (map_weather Fin) ws) no_ratios = Ok (raw, r) ->
  simulateRaw (map_params Fin p) (map (map_weather Fin) ws') no_ratios = Ok (raw', r') ->
  forall k h h', nth_error raw k = Some h -> nth_error raw' k = Some h' ->
  exists qh qc qh' qc', hr_Qneed_ht h = Fin qh /\ hr_Qneed_cl h = Fin qc /\ hr_Qneed_ht h' = Fin qh' /\ hr_Qneed_cl h' = Fin qc' /\
    qh' <= qh /\ qc <= qc'.
Proof.
  intros HP HO HM HR HT HE HW H H' k h h' K K'.
  destruct (C04_year_l p tt ws raw r HP HO HT H) as (ns & N & E). destruct (C04_year_l p tt ws' raw' r' HP HO HT H') as (ns' & N' & E').
  assert (L : length ns = length ns').
  { pose proof (simulateRaw_length _ _ _ _ _ H). pose proof (simulateRaw_length _ _ _ _ _ H').
    apply (f_equal (@length _)) in E. apply (f_equal (@length _)) in E'. rewrite !map_length in E, E'. lia. }
  pose proof (proj1 HE) as B. pose proof (warmer_hours p lo hi tt HP HO HM HR HE 0%Z 20 20 ws ns N ws' 20 20 ns' N' L HW B B (Rle_refl 20)) as F.
  apply (map_nth_error (fun h => (hr_Qneed_ht h, hr_Qneed_cl h))) in K, K'. rewrite E in K. rewrite E' in K'.
  rewrite nth_error_map in K, K'. destruct (nth_error ns k) as [a|] eqn:Ea; [|discriminate K]. destruct (nth_error ns' k) as [b|] eqn:Eb; [|discriminate K'].
  cbn in K, K'. injection K as K1 K2. injection K' as K3 K4. exists (fst a), (snd a), (fst b), (snd b).
  split; [auto|]. split; [auto|]. split; [auto|]. split; [auto|]. exact (Forall2_nth _ _ _ F k a b Ea Eb).
Qed.

(** ** Higher set-points *)
Lemma physical_points p ho hu co cu : physical p -> physical (set_points p ho hu co cu).
Proof. intros []. constructor; assumption. Qed.
Section Points.
Variables (p : params_t R) (ho hu co cu lo hi : R) (tt : timetable).
Let q := set_points p ho hu co cu.
Hypothesis (HP : physical p) (HO : ordered_setpoints p) (HO' : ordered_setpoints q) (HM : mass_slow p).
Hypothesis (H1 : ht_tempOcc (pa_heating p) <= ho) (H2 : ht_tempUnocc (pa_heating p) <= hu) (H3 : cl_tempOcc (pa_cooling p) <= co) (H4 : cl_tempUnocc (pa_cooling p) <= cu).
Hypothesis (HE : encloses lo hi p) (HE' : encloses lo hi q).
Lemma points_compare k w ta ta' m0 m m0' m' a a' qh qc qh' qc' : steady_leak p lo hi w -> lo <= ta <= hi -> lo <= ta' <= hi -> m0 <= m0' ->
  iso_step (rc_at p tt k w ta) (heat_at p tt k) (cool_at p tt k) m0 m a qh qc -> iso_step (rc_at q tt k w ta') (heat_at q tt k) (cool_at q tt k) m0' m' a' qh' qc' ->
  a <= a' /\ m <= m' /\ sp_capacity p / 3.6 * ((m' - m) - (m0' - m0)) <= (qh' - qc') - (qh - qc).
Proof.
  intros HW A A' D S S'.
  assert (NN : same_net (rc_at p tt k w ta) (rc_at p tt k w ta')).
  { destruct (nets p (bu_elecApplianceOcc (pa_building p)) (bu_elecApplianceUnocc (pa_building p)) lo hi tt HP HM k w ta ta' HW A A') as (_ & B & _).
    destruct B as [B1 B2 B3 B4 B5 B6 B7 B8]. constructor; try reflexivity; assumption. }
  change (rc_at q tt k w ta') with (rc_at p tt k w ta') in S'. pose proof (rc_at_positive p tt k w ta HP) as X.
  assert (G : rc_phi_ia (rc_at p tt k w ta') = rc_phi_ia (rc_at p tt k w ta) /\ rc_phi_st (rc_at p tt k w ta') = rc_phi_st (rc_at p tt k w ta) /\ rc_phi_m (rc_at p tt k w ta') = rc_phi_m (rc_at p tt k w ta)) by (repeat split; reflexivity).
  assert (SL : slow_net (rc_at p tt k w ta)) by exact HM. assert (CC : rc_C (rc_at p tt k w ta) = sp_capacity p) by reflexivity.
  set (n := rc_at p tt k w ta) in *. set (n' := rc_at p tt k w ta') in *. clearbody n n'. destruct G as (G1 & G2 & G3).
  assert (LL : heat_at p tt k <= heat_at q tt k) by (unfold heat_at; destruct (occupied tt k); assumption).
  assert (LH : cool_at p tt k <= cool_at q tt k) by (unfold cool_at; destruct (occupied tt k); assumption).
  destruct (steps_warmer n n' _ _ _ _ _ _ _ _ _ _ _ _ _ _ X NN SL ltac:(lra) ltac:(lra) ltac:(lra) D LL LH S S') as [KA KM].
  split; [exact KA|]. split; [exact KM|].
  destruct S as (_ & (s & E) & _). destruct S' as (_ & (s' & E') & _).
  destruct (masses_mono n n' X NN SL _ _ _ _ _ _ _ _ _ _ E E' KA D ltac:(lra) ltac:(lra)) as [KS _].
  destruct (balance_diff n n' NN _ _ _ _ _ _ _ _ _ _ E E') as (E1 & E2 & E3). destruct X as (X1 & X2 & X3 & X4 & X5 & X6). rewrite CC in E3.
  assert (0 <= rc_ve n * (a' - a)) by (apply Rmult_le_pos; lra). assert (0 <= rc_w n * (s' - s)) by (apply Rmult_le_pos; lra).
  assert (0 <= rc_em n * ((m0' - m0 + (m' - m)) / 2)) by (apply Rmult_le_pos; lra). lra.
Qed.
Lemma points_hours k tm ta ws ns : iso_hours p tt k tm ta ws ns -> forall tm' ta' ns', iso_hours q tt k tm' ta' ws ns' -> length ns = length ns' ->
  (forall w, In w ws -> steady_leak p lo hi w) -> lo <= ta <= hi -> lo <= ta' <= hi -> tm <= tm' ->
  - (sp_capacity p / 3.6 * (tm' - tm)) <= (Rsum (map fst ns') - Rsum (map snd ns')) - (Rsum (map fst ns) - Rsum (map snd ns)).
Proof.
  assert (CP : 0 <= sp_capacity p / 3.6).
  { pose proof (rc_at_positive p tt 0 {| we_wind := 0; we_temp := 0; we_sol := nil |} 0 HP) as (_ & _ & _ & _ & _ & X6). change (rc_C (rc_at p tt 0 {| we_wind := 0; we_temp := 0; we_sol := nil |} 0)) with (sp_capacity p) in X6. lra. }
  induction 1 as [k tm ta ws|k tm ta w ws m a qh qc ns S R IH]; intros tm' ta' ns' H' L HW A A' D.
  - destruct ns'; [|discriminate L]. assert (0 <= sp_capacity p / 3.6 * (tm' - tm)) by (apply Rmult_le_pos; lra). unfold Rsum. cbn. lra.
  - inversion H' as [|k2 tm2 ta2 w2 ws2 m' a' qh' qc' ns2 S' R' EQ1 EQ2 EQ3]; subst; [discriminate L|].
    destruct (points_compare k w ta ta' _ _ _ _ _ _ _ _ _ _ (HW w (or_introl eq_refl)) A A' D S S') as (KA & KM & K3).
    pose proof (IH m' a' ns2 R' ltac:(cbn in L; lia) (fun v Hv => HW v (or_intror Hv)) (air_enclosed p lo hi tt HO HE k _ _ _ _ _ _ S) (air_enclosed q lo hi tt HO' HE' k _ _ _ _ _ _ S') KM) as I2.
    cbn [map fst snd]. rewrite !Rsum_step. revert I2 K3. clear. generalize (sp_capacity p / 3.6) (Rsum (map fst ns)) (Rsum (map fst ns2)) (Rsum (map snd ns)) (Rsum (map snd ns2)). intros. lra.
Qed.
End Points.
Lemma C95_l p ho hu co cu lo hi tt ws raw raw' r r' : let q := set_points p ho hu co cu in
  physical p -> ordered_setpoints p -> ordered_setpoints q -> mass_slow p -> timetable_of p tt ->
  ht_tempOcc (pa_heating p) <= ho -> ht_tempUnocc (pa_heating p) <= hu -> cl_tempOcc (pa_cooling p) <= co -> cl_tempUnocc (pa_cooling p) <= cu ->
  encloses lo hi p -> encloses lo hi q -> (forall w, In w ws -> steady_leak p lo hi w) ->
  simulateRaw (map_params Fin p) (map (map_weather Fin) ws) no_ratios = Ok (raw, r) ->
  simulateRaw (map_params Fin q) (map (map_weather Fin) ws) no_ratios = Ok (raw', r') ->
  forall qh qc qh' qc',
  map hr_Qneed_ht raw = map Fin qh -> map hr_Qneed_cl raw = map Fin qc -> map hr_Qneed_ht raw' = map Fin qh' -> map hr_Qneed_cl raw' = map Fin qc' ->
  Rsum qh - Rsum qc <= Rsum qh' - Rsum qc'.
Proof.
  intros q HP HO HO' HM HT I1 I2 I3 I4 HE HE' HW H H' qh qc qh' qc' A1 A2 B1 B2.
  destruct (C04_year_l p tt ws raw r HP HO HT H) as (ns & N & E). destruct (C04_year_l q tt ws raw' r' (physical_points p ho hu co cu HP) HO' HT H') as (ns' & N' & E').
  assert (L : length ns = length ns').
  { pose proof (simulateRaw_length _ _ _ _ _ H). pose proof (simulateRaw_length _ _ _ _ _ H').
    pose proof (f_equal (@length _) E) as F1. pose proof (f_equal (@length _) E') as F2. rewrite !map_length in F1, F2. lia. }
  pose proof (proj1 HE) as B.
  pose proof (points_hours p ho hu co cu lo hi tt HP HO HO' HM I1 I2 I3 I4 HE HE' 0%Z 20 20 ws ns N 20 20 ns' N' L HW B B (Rle_refl 20)) as K.
  assert (X1 : qh = map fst ns). { apply map_Fin_inj. rewrite <- A1, map_map. apply (f_equal (map fst)) in E. rewrite !map_map in E. exact E. }
  assert (X2 : qc = map snd ns). { apply map_Fin_inj. rewrite <- A2, map_map. apply (f_equal (map snd)) in E. rewrite !map_map in E. exact E. }
  assert (X3 : qh' = map fst ns'). { apply map_Fin_inj. rewrite <- B1, map_map. apply (f_equal (map fst)) in E'. rewrite !map_map in E'. exact E'. }
  assert (X4 : qc' = map snd ns'). { apply map_Fin_inj. rewrite <- B2, map_map. apply (f_equal (map snd)) in E'. rewrite !map_map in E'. exact E'. }
  replace (20 - 20) with 0 in K by ring. rewrite Rmult_0_r in K. rewrite X1, X2, X3, X4. lra.
Qed.
