(** Lemmas behind T_HourlyStep and T_HourlyYear, second part. *)
From Coq Require Import Reals Lra Psatz ZArith List Bool Lia.
From Verif Require Import Base Num Xr M_Params M_TimeFrame M_Hourly M_Map L_Xr L_HourlyR S_Physical L_HourlyFin L_HourlyFin2
  S_RC S_Network L_HourlySpec S_Year S_HourSpec L_HourlyShape L_HourlyRun L_HourlyThm.
Import ListNotations.
Open Scope R_scope.

(** ** Bounded temperatures *)
Lemma upper_bound ve hs w ms em c sup out ta ts tm0 tm1 b :
  0 < ve -> 0 < hs -> 0 <= w -> 0 < ms -> 0 < em -> (ms + em) / 2 <= c ->
  sup <= b -> out <= b -> tm0 <= b ->
  (ta <= b \/ ve * (sup - ta) + hs * (ts - ta) = 0) ->
  hs * (ta - ts) + w * (out - ts) + ms * ((tm0 + tm1) / 2 - ts) = 0 ->
  c * (tm1 - tm0) = ms * (ts - (tm0 + tm1) / 2) + em * (out - (tm0 + tm1) / 2) ->
  tm1 <= b /\ ta <= b.
Proof.
  intros Hv Hs Hw Hm He Hc HS HO H0 HA E2 E3.
  set (tm := (tm0 + tm1) / 2) in *.
  assert (A : ta <= Rmax b ts).
  { destruct HA as [HA|HA]; [apply Rle_trans with b; [exact HA|apply Rmax_l]|].
    destruct (Rle_lt_dec ta (Rmax b ts)) as [L|L]; [exact L|]. pose proof (Rmax_l b ts). pose proof (Rmax_r b ts). nra. }
  assert (S : ts <= Rmax b tm).
  { destruct (Rle_lt_dec ts (Rmax b tm)) as [L|L]; [exact L|]. exfalso.
    pose proof (Rmax_l b tm). pose proof (Rmax_r b tm). rewrite (Rmax_right b ts) in A by lra. nra. }
  assert (M : tm1 <= b).
  { destruct (Rle_lt_dec tm1 b) as [L|L]; [exact L|]. exfalso.
    destruct (Rle_lt_dec tm b) as [K|K].
    - rewrite Rmax_left in S by lra.
      assert (tm1 * (c + (ms + em) / 2) = tm0 * (c - (ms + em) / 2) + ms * ts + em * out) by (unfold tm in *; nra).
      nra.
    - rewrite Rmax_right in S by lra. nra. }
  split; [exact M|]. unfold tm in *. rewrite Rmax_left in S by lra. rewrite Rmax_left in A by lra. exact A.
Qed.

Lemma iso_bounded x lo hi tm0 tm1 ta qh qc a b : rc_positive x -> no_gains x ->
  (rc_ms x + rc_em x) / 2 <= rc_C x / 3.6 ->
  a <= rc_out x <= b -> a <= rc_sup x <= b -> a <= lo -> lo <= hi -> hi <= b -> a <= tm0 <= b ->
  iso_step x lo hi tm0 tm1 ta qh qc -> a <= tm1 <= b /\ a <= ta <= b.
Proof.
  intros HX (G1 & G2 & G3) HC HO HS Hl Hlh Hh H0 ((f & (m & s & F) & T) & (u & B) & _).
  assert (HA : (a <= ta <= b) \/ rc_ve x * (rc_sup x - ta) + rc_is x * (u - ta) = 0).
  { unfold clamp in T.
    destruct (Rle_lt_dec f lo) as [L|L]; [left; rewrite Rmin_right in T by lra; rewrite Rmax_left in T by lra; lra|].
    destruct (Rle_lt_dec hi f) as [K|K]; [left; rewrite Rmin_left in T by lra; rewrite Rmax_right in T by lra; lra|].
    right. rewrite Rmin_right in T by lra. rewrite Rmax_right in T by lra. subst f.
    destruct (balance_given_air x _ _ tm0 m tm1 s u ta HX F B) as (E & _). destruct B as (B1 & _). rewrite G1 in B1. lra. }
  destruct HX as (X1 & X2 & X3 & X4 & X5 & X6). destruct B as (B1 & B2 & B3). rewrite G2 in B2. rewrite G3 in B3.
  cbv zeta in B2, B3.
  assert (U : tm1 <= b /\ ta <= b).
  { apply (upper_bound (rc_ve x) (rc_is x) (rc_w x) (rc_ms x) (rc_em x) (rc_C x / 3.6) (rc_sup x) (rc_out x) ta u tm0 tm1 b); lra. }
  assert (D : - tm1 <= - a /\ - ta <= - a).
  { apply (upper_bound (rc_ve x) (rc_is x) (rc_w x) (rc_ms x) (rc_em x) (rc_C x / 3.6) (- rc_sup x) (- rc_out x) (- ta) (- u) (- tm0) (- tm1) (- a)); lra. }
  lra.
Qed.

Lemma dark_nth sol : Forall (eq 0) sol -> forall k, nth k sol 0 = 0.
Proof.
  intros H. induction H as [|a l E HF IH]; intros k; [destruct k; reflexivity|]. destruct k; [symmetry; exact E|apply IH].
Qed.
Lemma Rsum_zero {A} (f : A -> R) l : (forall x, In x l -> f x = 0) -> Rsum (map f l) = 0.
Proof.
  induction l as [|a l IH]; intros H; [reflexivity|]. change (Rsum (map f (a :: l))) with (f a + Rsum (map f l)).
  rewrite (H a (or_introl eq_refl)), IH; [lra|]. intros x Hx. apply H. right. exact Hx.
Qed.
Lemma dark_solar p sol : Forall (eq 0) sol -> sp_solar p sol = 0.
Proof. intros H. unfold sp_solar. apply Rsum_zero. intros k _. rewrite (dark_nth sol H k). ring. Qed.
Lemma envelope_nonneg p f w t ti : 0 <= sp_envelope p f w t ti.
Proof. unfold sp_envelope, sp_exfiltration. pose proof (Rmax_l 0 (sp_unbalance p f)).
  match goal with |- 0 <= _ + Rmax 0 ?e => pose proof (Rmax_l 0 e) end. lra. Qed.
Lemma supply_nonneg p f : physical p -> 0 <= f -> 0 <= sp_supply p f.
Proof.
  intros HP Hf. unfold sp_supply, sp_vent. pose proof (phy_area p HP) as PA.
  apply Rmult_le_pos. { apply Rmult_le_pos; [lra|]. left. apply Rinv_0_lt_compat, PA. }
  apply Rle_trans with (1 / 100000); [lra|apply Rmax_l].
Qed.
Lemma total_pos p f w t ti : physical p -> 0 <= f -> 0 < sp_total p f w t ti.
Proof.
  intros HP Hf. destruct (initialize_fin p HP no_ratios) as (i & Ei & _). pose proof (initialize_ok p _ i HP Ei) as HI.
  set (sc := {| sc_vent := f; sc_extEquip := 0; sc_intEquip := 0; sc_extLight := 0; sc_intLight := 0; sc_heatSP := 0; sc_coolSP := 0 |}).
  set (we := {| we_wind := w; we_temp := t; we_sol := [] |}).
  pose proof (qTotal_pos p i HI (phy_area p HP) (phy_dCp p HP) sc we {| th_TMT1 := 0; th_ti := ti |} Hf) as Q.
  destruct (flows_spec p HP i Ei sc we {| th_TMT1 := 0; th_ti := ti |}) as (_ & E & _).
  unfold theFlows in Q. rewrite E in Q. exact Q.
Qed.
Lemma mixed_between p f w t ti a b : physical p -> 0 <= f -> a <= t <= b -> a <= sp_supplied p t <= b ->
  a <= sp_mixed p f w t ti <= b.
Proof.
  intros HP Hf Ht Hs. pose proof (total_pos p f w t ti HP Hf) as PT. pose proof (envelope_nonneg p f w t ti) as PE.
  pose proof (supply_nonneg p f HP Hf) as PS. unfold sp_mixed. unfold sp_total in *.
  set (e := sp_envelope p f w t ti) in *. set (s := sp_supply p f) in *. set (u := sp_supplied p t) in *.
  assert (a * (e + s) <= t * e + u * s <= b * (e + s)) by nra.
  split; [apply (Rmult_le_reg_r (e + s))|apply (Rmult_le_reg_r (e + s))]; try lra;
    unfold Rdiv; rewrite Rmult_assoc, Rinv_l, Rmult_1_r by lra; lra.
Qed.

Lemma quiet_rc p a b sc w ti : physical p -> quiet p a b sc w ->
  let x := hour_rc p (sc_vent sc) (sc_intEquip sc) (sc_intLight sc) (we_wind w) (we_temp w) (we_sol w) ti in
  no_gains x /\ a <= rc_out x <= b /\ a <= rc_sup x <= b.
Proof.
  intros HP [QV QE QL QD QO QS Q1 Q2 Q3] x. unfold x, hour_rc, no_gains. cbn [rc_phi_ia rc_phi_st rc_phi_m rc_out rc_sup].
  rewrite (dark_solar p _ QD). unfold sp_internal. rewrite QE, QL.
  split; [|split].
  - repeat split; ring.
  - exact QO.
  - apply mixed_between; auto.
Qed.

Lemma quiet_step p a b i' sc w th : physical p -> mass_slow p -> initialize (map_params Fin p) no_ratios = Ok i' ->
  quiet p a b sc w -> a <= th_TMT1 th <= b ->
  exists th', snd (calculateHour (map_params Fin p) i' (map_sched Fin sc) (map_weather Fin w) (map_thermal Fin th)) = map_thermal Fin th' /\
    a <= th_TMT1 th' <= b /\ a <= th_ti th' <= b.
Proof.
  intros HP HM HI HQ HT. pose proof HQ as [QV QE QL QD QO QS Q1 Q2 Q3].
  destruct (C04_step_l p i' sc w th HP QV Q2 HI) as (tm1 & ta1 & qh & qc & h & E & _ & _ & IS).
  rewrite E. exists {| th_TMT1 := tm1; th_ti := ta1 |}. split; [reflexivity|]. cbn [th_TMT1 th_ti].
  destruct (quiet_rc p a b sc w (th_ti th) HP HQ) as (G & O & S).
  refine (iso_bounded _ (sc_heatSP sc) (sc_coolSP sc) (th_TMT1 th) tm1 ta1 qh qc a b _ G _ O S Q1 Q2 Q3 HT IS).
  - destruct (init_cases p no_ratios i' HP HI) as (i & Ei & _ & IO).
    rewrite <- (hour_rc_spec p HP i Ei sc w th). apply net_positive, step_wf; auto.
  - exact HM.
Qed.

Lemma C07_bounded_l p a b i' : physical p -> mass_slow p -> initialize (map_params Fin p) no_ratios = Ok i' ->
  forall hours th, Forall (fun sw => quiet p a b (fst sw) (snd sw)) hours -> a <= th_TMT1 th <= b -> a <= th_ti th <= b ->
  exists th', fold_left (fun t sw => snd (calculateHour (map_params Fin p) i' (map_sched Fin (fst sw)) (map_weather Fin (snd sw)) t))
      hours (map_thermal Fin th) = map_thermal Fin th' /\
    a <= th_TMT1 th' <= b /\ a <= th_ti th' <= b.
Proof.
  intros HP HM HI. induction hours as [|[sc w] hours IH]; intros th HF H1 H2.
  - exists th. auto.
  - inversion HF as [|x l HQ HR]; subst. cbn [fst snd] in HQ. cbn [fold_left fst snd].
    destruct (quiet_step p a b i' sc w th HP HM HI HQ H1) as (th1 & E & A & B). rewrite E. apply IH; auto.
Qed.

(** Without heat capacity the mass jumps to the other side. *)
Lemma massless_jump p i' sc w tm0 ti : physical p -> initialize (map_params Fin p) no_ratios = Ok i' ->
  sp_capacity p = 0 -> quiet p 0 0 {| sc_vent := sc_vent sc; sc_extEquip := sc_extEquip sc; sc_intEquip := sc_intEquip sc; sc_extLight := sc_extLight sc;
     sc_intLight := sc_intLight sc; sc_heatSP := 0; sc_coolSP := 0 |} w ->
  sc_heatSP sc <= 0 <= sc_coolSP sc ->
  th_TMT1 (snd (calculateHour (map_params Fin p) i' (map_sched Fin sc) (map_weather Fin w) (map_thermal Fin {| th_TMT1 := tm0; th_ti := ti |}))) = Fin (- tm0).
Proof.
  intros HP HI HC HQ HB. pose proof (quiet_rc p 0 0 _ w ti HP HQ) as G. cbn [sc_vent sc_intEquip sc_intLight] in G.
  destruct HQ as [QV QE QL QD QO QS Q1 Q2 Q3]. cbn [sc_vent sc_intEquip sc_intLight sc_heatSP sc_coolSP] in *.
  destruct (C04_step_l p i' sc w {| th_TMT1 := tm0; th_ti := ti |} HP QV ltac:(lra) HI) as (tm1 & ta1 & qh & qc & h & E & _ & _ & IS).
  rewrite E. cbn [snd th_TMT1]. f_equal.
  set (x := hour_rc p (sc_vent sc) (sc_intEquip sc) (sc_intLight sc) (we_wind w) (we_temp w) (we_sol w) ti) in *.
  cbn [th_TMT1 th_ti] in IS. fold x in IS. cbv zeta in G. destruct G as ((G1 & G2 & G3) & GO & GS).
  assert (HX : rc_positive x).
  { destruct (init_cases p no_ratios i' HP HI) as (i & Ei & _ & IO).
    unfold x. pose proof (hour_rc_spec p HP i Ei sc w {| th_TMT1 := tm0; th_ti := ti |}) as ER. cbn [th_ti] in ER. rewrite <- ER.
    apply net_positive, step_wf; auto. }
  assert (XC : rc_C x = 0) by exact HC.
  assert (O0 : rc_out x = 0) by lra. assert (S0 : rc_sup x = 0) by lra.
  assert (B : rc_balance x 0 tm0 (- tm0) 0 0).
  { unfold rc_balance. rewrite G1, G2, G3, XC, O0, S0. repeat split; lra. }
  destruct IS as ((f & (m & s & F) & T) & (u & BB) & _).
  destruct (balance_unique x 0 tm0 _ _ _ _ _ _ HX F B) as (_ & _ & ->).
  assert (T0 : ta1 = 0). { rewrite T. unfold clamp. rewrite Rmin_right, Rmax_right; lra. } rewrite T0 in BB.
  destruct (balance_given_air x _ _ tm0 _ _ _ _ 0 HX BB B) as (_ & -> & _). reflexivity.
Qed.

(** ** Auxiliary end uses *)
Lemma fin_inj a b : Fin a = Fin b -> a = b.
Proof. congruence. Qed.

Lemma C08_run_l p tt ws r0 raw r : physical p -> timetable_of p tt ->
  simulateRaw (map_params Fin p) (map (map_weather Fin) ws) (map_ratios Fin r0) = Ok (raw, r) ->
  forall k h, nth_error raw k = Some h -> exists w, nth_error ws k = Some w /\ aux_spec p tt (Z.of_nat k) w h.
Proof.
  intros HP HT H k h Hk. destruct (run_trace p tt ws r0 raw r HP HT H) as (i & _ & HI & TR).
  destruct (trace_nth _ _ _ _ _ _ _ TR k h Hk) as (w & th & Hw & _ & E). exists w. split; [exact Hw|].
  rewrite Z.add_0_l in E. set (sc := sched_of p tt (Z.of_nat k)) in *.
  assert (HV : 0 <= sc_vent sc) by (apply flow_nonneg, HP).
  pose proof (step_ht p HP i HI sc HV w th) as E1. pose proof (step_cl p HP i HI sc HV w th) as E2.
  pose proof (step_pump p HP i HI sc HV w th) as E3. pose proof (step_extLight p HP i sc w th) as E4.
  pose proof (step_extEquip p HP i sc w th) as E5. pose proof (step_dhw p i sc w th) as E6. pose proof (step_plug p i sc w th) as E7.
  rewrite <- E in *. set (q := plant p i sc w th) in *.
  constructor.
  - intros c Ec L. rewrite E2 in Ec. apply fin_inj in Ec. subst c. rewrite E3. destruct (Rlt_dec q 0); [reflexivity|]. rewrite Rmax_left in L by lra. lra.
  - intros c Ec L. rewrite E1 in Ec. apply fin_inj in Ec. subst c. rewrite E3. destruct (Rlt_dec q 0); [rewrite Rmax_left in L by lra; lra|].
    destruct (Rlt_dec 0 q); [reflexivity|]. rewrite Rmax_left in L by lra. lra.
  - intros A B. rewrite E2 in A. rewrite E1 in B. apply fin_inj in A. apply fin_inj in B. rewrite E3.
    destruct (Rlt_dec q 0); [rewrite Rmax_right in A by lra; lra|]. destruct (Rlt_dec 0 q); [rewrite Rmax_right in B by lra; lra|reflexivity].
  - intros L. rewrite E4. destruct (Rlt_dec 0 (nth 8 (we_sol w) 0)); [reflexivity|lra].
  - intros L. rewrite E4. destruct (Rlt_dec 0 (nth 8 (we_sol w) 0)); [lra|]. f_equal. change (sc_extLight sc) with 1. rewrite Rmult_1_r. reflexivity.
  - exact E7.
  - exact E5.
  - exact E6.
Qed.

(** ** Fans *)
Lemma C09_step_l p r0 i' sc w th : physical p -> 0 <= sc_vent sc -> 0 <= ve_fanPower (pa_ventilation p) -> fan_defined p (th_ti th) ->
  initialize (map_params Fin p) (map_ratios Fin r0) = Ok i' ->
  exists f, hr_fan (fst (calculateHour (map_params Fin p) i' (map_sched Fin sc) (map_weather Fin w) (map_thermal Fin th))) = Fin f /\
    0 <= min_fan p (sc_vent sc) <= f /\
    (ht_forcedAir (pa_heating p) = false -> cl_forcedAir (pa_cooling p) = false -> f = min_fan p (sc_vent sc)).
Proof.
  intros HP HV HF [D1 D2] H. destruct (init_cases p r0 i' HP H) as (i & Ei & -> & HI).
  rewrite (step_fan p HP i HI sc HV w th D1 D2). eexists. split; [reflexivity|].
  assert (V : 0 <= sp_vent p (sc_vent sc)).
  { unfold sp_vent. pose proof (phy_area p HP) as PA. apply Rmult_le_pos; [lra|]. left. apply Rinv_0_lt_compat, PA. }
  unfold min_fan. set (v := sp_vent p (sc_vent sc)) in *. set (e := ve_fanPower (pa_ventilation p)) in *.
  set (g := fan_flow p (th_ti th) (plant p i sc w th)).
  assert (M : v <= Rmax g v) by apply Rmax_r.
  split; [|].
  - assert (0 <= v * e) by (apply Rmult_le_pos; lra). assert (v * e <= Rmax g v * e) by (apply Rmult_le_compat_r; lra). lra.
  - intros F1 F2. unfold g, fan_flow. rewrite F1, F2. rewrite Rmax_right by lra. reflexivity.
Qed.
Lemma C09_monotone_l p vent vent' ti qh qc : 0 <= ve_fanPower (pa_ventilation p) -> fan_defined p ti -> vent <= vent' ->
  exists f f', fanEnergy (map_params Fin p) (Fin vent) (Fin ti) (Fin qh) (Fin qc) = Fin f /\
    fanEnergy (map_params Fin p) (Fin vent') (Fin ti) (Fin qh) (Fin qc) = Fin f' /\ f <= f'.
Proof.
  intros HF [D1 D2] HL.
  assert (E : forall v, fanEnergy (map_params Fin p) (Fin v) (Fin ti) (Fin qh) (Fin qc) =
    Fin (Rmax ((if ht_forcedAir (pa_heating p) then qh / fan_den_ht p ti else 0) + (if cl_forcedAir (pa_cooling p) then qc / fan_den_cl p ti else 0)) v
         * ve_fanPower (pa_ventilation p) * 1000 / 3600)).
  { intros v. unfold fanEnergy.
    cbn [map_params map_heating map_cooling map_phys map_ventilation pa_heating pa_cooling pa_phys pa_ventilation ht_tempOcc ht_dT_supp
      cl_tempOcc cl_dT_supp ph_rhoCpAir ht_forcedAir cl_forcedAir ve_fanPower].
    rewrite dblmin_fin. fin.
    rewrite (div_fin qh) by exact D1. rewrite (div_fin qc) by exact D2.
    rewrite !if_fin. fin. rewrite div_fin by (num; lra). f_equal. rewrite nmax_R.
    num. replace (0/1) with 0 by lra. replace (1000/1) with 1000 by lra. replace (3600/1) with 3600 by lra. reflexivity. }
  rewrite !E. do 2 eexists. split; [reflexivity|]. split; [reflexivity|].
  set (g := (if ht_forcedAir (pa_heating p) then _ else _) + _).
  assert (Rmax g vent <= Rmax g vent') by (apply Rle_max_compat_l; exact HL).
  assert (Rmax g vent * ve_fanPower (pa_ventilation p) <= Rmax g vent' * ve_fanPower (pa_ventilation p)) by (apply Rmult_le_compat_r; lra). lra.
Qed.

(** ** Lighting *)
Lemma lit_bounds p : physical p -> daylit p -> 0 < sp_lit_ratio p <= 1.
Proof.
  intros HP HD. pose proof (phy_area p HP) as PA. rewrite <- lit_spec. split; [exact (areaNatRatio_pos p HP)|].
  rewrite lit_spec. unfold sp_lit_ratio.
  apply (Rmult_le_reg_r (st_floorArea (pa_structure p))); [exact PA|]. replace (Rmax (1 / 10000) (li_naturallyLightedArea (pa_lighting p)) / st_floorArea (pa_structure p) * st_floorArea (pa_structure p))
    with (Rmax (1 / 10000) (li_naturallyLightedArea (pa_lighting p))) by (field; lra). rewrite Rmult_1_l.
  apply Rmax_lub; [exact (dl_floor p HD)|exact (dl_area p HD)].
Qed.
Lemma control_bounds p : physical p -> daylit p -> 0 <= fst (sp_control p) <= 1 /\ 0 < snd (sp_control p).
Proof.
  intros HP HD. destruct HD as [_ _ A1 A2 A3 A4 _]. pose proof (phy_lux1 p HP). pose proof (phy_lux2 p HP). pose proof (phy_lux3 p HP). pose proof (phy_lux4 p HP).
  unfold sp_control. destruct (Rlt_dec _ _); destruct (Rlt_dec _ _); cbn [fst snd]; auto.
Qed.
Lemma nth_nonneg l : all_nonneg l -> forall k, 0 <= nth k l 0.
Proof.
  intros H k. destruct (nth_in_or_default k l 0) as [I|E]; [exact (H _ I)|]. lra.
Qed.
Lemma Rsum_le {A} (f g : A -> R) l : (forall x, In x l -> f x <= g x) -> Rsum (map f l) <= Rsum (map g l).
Proof.
  induction l as [|a l IH]; intros H; [apply Rle_refl|].
  change (Rsum (map f (a :: l))) with (f a + Rsum (map f l)). change (Rsum (map g (a :: l))) with (g a + Rsum (map g l)).
  pose proof (H a (or_introl eq_refl)). pose proof (IH (fun x Hx => H x (or_intror Hx))). lra.
Qed.
Lemma daylight_mono p sol sol' : physical p -> daylit p -> (forall k, nth k sol 0 <= nth k sol' 0) ->
  sp_daylight p sol <= sp_daylight p sol'.
Proof.
  intros HP HD HS. pose proof (phy_area p HP) as PA. pose proof (lit_bounds p HP HD) as [LP _].
  unfold sp_daylight. apply Rsum_le. intros k _.
  assert (0 <= nth k (st_windowArea (pa_structure p)) 0 * (nth k (st_windowSDF (pa_structure p)) 0 / 0.87) / st_floorArea (pa_structure p)).
  { apply Rmult_le_pos; [|left; apply Rinv_0_lt_compat; exact PA]. apply Rmult_le_pos; [apply nth_nonneg, (phy_windowArea p HP)|].
    apply Rmult_le_pos; [apply nth_nonneg, (dl_sdf p HD)|lra]. }
  apply Rmult_le_compat_r; [assumption|]. apply Rmult_le_compat_l; [|apply HS]. left. apply Rdiv_lt_0_compat; lra.
Qed.
Lemma daylight_nonneg p sol : physical p -> daylit p -> all_nonneg sol -> 0 <= sp_daylight p sol.
Proof.
  intros HP HD HS. apply Rle_trans with (sp_daylight p []).
  - right. symmetry. unfold sp_daylight. apply Rsum_zero. intros k _. replace (nth k [] 0) with 0 by (destruct k; reflexivity). ring.
  - apply daylight_mono; auto. intros k. replace (nth k [] 0) with 0 by (destruct k; reflexivity). apply nth_nonneg, HS.
Qed.
Lemma lights_bounds p sol : physical p -> daylit p -> all_nonneg sol -> 0 <= sp_lights_on p sol <= 1.
Proof.
  intros HP HD HS. pose proof (daylight_nonneg p sol HP HD HS) as DN. pose proof (lit_bounds p HP HD) as [LP L1].
  destruct (control_bounds p HP HD) as ([A0 A1] & LX). unfold sp_lights_on. destruct (sp_control p) as [ad lux]. cbn [fst snd] in *.
  set (d := sp_daylight p sol) in *. set (l := sp_lit_ratio p) in *.
  assert (0 <= d / lux) by (apply Rmult_le_pos; [lra|left; apply Rinv_0_lt_compat; lra]).
  assert (0 <= Rmax 0 (ad * (1 - d / lux)) <= ad). { split; [apply Rmax_l|]. apply Rmax_lub; nra. }
  nra.
Qed.
Lemma lights_anti p sol sol' : physical p -> daylit p -> (forall k, nth k sol 0 <= nth k sol' 0) ->
  sp_lights_on p sol' <= sp_lights_on p sol.
Proof.
  intros HP HD HS. pose proof (daylight_mono p sol sol' HP HD HS) as DM. pose proof (lit_bounds p HP HD) as [LP L1].
  destruct (control_bounds p HP HD) as ([A0 A1] & LX). unfold sp_lights_on. destruct (sp_control p) as [ad lux]. cbn [fst snd] in *.
  set (d := sp_daylight p sol) in *. set (d' := sp_daylight p sol') in *. set (l := sp_lit_ratio p) in *.
  assert (d / lux <= d' / lux) by (apply Rmult_le_compat_r; [left; apply Rinv_0_lt_compat; lra|lra]).
  assert (Rmax 0 (ad * (1 - d' / lux)) <= Rmax 0 (ad * (1 - d / lux))) by (apply Rle_max_compat_l; nra).
  nra.
Qed.

Lemma C12_run_l p tt ws raw r : physical p -> daylit p -> timetable_of p tt -> (forall w, In w ws -> all_nonneg (we_sol w)) ->
  simulateRaw (map_params Fin p) (map (map_weather Fin) ws) no_ratios = Ok (raw, r) ->
  forall k h, nth_error raw k = Some h -> 0 <= lights_at p tt (Z.of_nat k) ->
  exists v, hr_illum h = Fin v /\ 0 <= v <= lights_at p tt (Z.of_nat k).
Proof.
  intros HP HD HT HW H k h Hk HL. destruct (run_trace p tt ws no_ratios raw r HP HT H) as (i & Ei & HI & TR).
  destruct (trace_nth _ _ _ _ _ _ _ TR k h Hk) as (w & th & Hw & _ & ->). rewrite Z.add_0_l.
  rewrite (step_illum p i HI). eexists. split; [reflexivity|]. rewrite (lights_spec p HP i Ei).
  cbn [sched_of sc_intLight]. pose proof (lights_bounds p (we_sol w) HP HD (HW w (nth_error_In _ _ Hw))). nra.
Qed.
Lemma C12_monotone_l p i' sc w w' th th' : physical p -> daylit p -> 0 <= sc_intLight sc ->
  initialize (map_params Fin p) no_ratios = Ok i' -> (forall k, nth k (we_sol w) 0 <= nth k (we_sol w') 0) ->
  exists v v', hr_illum (fst (calculateHour (map_params Fin p) i' (map_sched Fin sc) (map_weather Fin w) (map_thermal Fin th))) = Fin v /\
    hr_illum (fst (calculateHour (map_params Fin p) i' (map_sched Fin sc) (map_weather Fin w') (map_thermal Fin th'))) = Fin v' /\ v' <= v.
Proof.
  intros HP HD HL H HS. destruct (init_cases p no_ratios i' HP H) as (i & Ei & -> & HI).
  rewrite !(step_illum p i HI). do 2 eexists. split; [reflexivity|]. split; [reflexivity|].
  rewrite !(lights_spec p HP i Ei). apply Rmult_le_compat_r; [exact HL|]. apply lights_anti; auto.
Qed.
