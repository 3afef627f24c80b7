(** A very leaky building, in which more appliances in one hour raise the heating need of the next. *)
From Coq Require Import Reals Lra Psatz ZArith List Lia.
From Verif Require Import Base Num Xr M_Params M_Hourly M_Map S_RC S_Physical S_Network S_Year S_HourSpec S_Balance S_Compare S_YearCompare E_SmallOffice S_Edit
  L_Xr L_HourlyR L_HourlySpec L_HourlyFin2 L_HourlyShape L_HourlyRun L_HourlyThm L_HourlyThm2 L_HourlyThm4 L_Office L_Office2 L_HourlyBalance2 L_Compare L_Compare2 L_Compare3 L_MonthlyClimate L_YearCompare.
Import ListNotations.
Open Scope R_scope.

(** Occupied in hour 0 of day 0 of the week only, all heat of the appliances to the air, no mechanical ventilation. *)
Definition leaky_vent {T} {N : Num T} (v : ventilation_t T) : ventilation_t T :=
  match v with mkVentilation _ a2 a3 a4 a5 a6 a7 a8 _ _ a11 a12 a13 a14 a15 a16 a17 a18 a19 => 
    mkVentilation (zn 0) a2 a3 a4 a5 a6 a7 a8 (zn 1000000) (lit 1 10) a11 a12 a13 a14 a15 a16 a17 a18 a19 end.
Definition leaky_heat {T} {N : Num T} (h : heating_t T) : heating_t T :=
  match h with mkHeating _ _ c d e f g h i j k l m n o q r s t u v w x => mkHeating (zn 0) (zn 20) c d e f g h i j k l m n o q r s t u v w x end.
Definition leaky_cool {T} {N : Num T} (h : cooling_t T) : cooling_t T :=
  match h with mkCooling _ _ c2 d2 e2 f2 g2 h2 i2 j2 k2 l2 m2 n2 o2 q2 => mkCooling (zn 30) (zn 30) c2 d2 e2 f2 g2 h2 i2 j2 k2 l2 m2 n2 o2 q2 end.
Definition leaky_of {T} {N : Num T} (p : params_t T) : params_t T :=
  mkParams (pa_structure p) (leaky_heat (pa_heating p)) (leaky_cool (pa_cooling p)) (leaky_vent (pa_ventilation p)) (pa_lighting p) (pa_building p)
    (mkPopulation (zn 0) (zn 0) (zn 0) (zn 0) (zn 1) (zn 1) (zn 1)) (mkSettings (zn 1) (ss_phiSolFraction (pa_settings p)) (ss_hci (pa_settings p)) (ss_hri (pa_settings p)))
    (pa_phys p) (pa_terrain p).
Definition leaky : params_t R := leaky_of still_office.
Definition one_hour : timetable := {| tt_firstHour := 0; tt_lastHour := 0; tt_firstDay := 0; tt_lastDay := 0 |}.
(** Calm frost. *)
Definition calm_hour {T} {N : Num T} : weather T := {| we_wind := zn 0; we_temp := zn 0; we_sol := repeat (zn 0) 9 |}.
Definition calm_year {T} {N : Num T} : list (weather T) := repeat calm_hour (Z.to_nat 8760).

Lemma leaky_physical : physical leaky.
Proof.
  constructor; try reflexivity; try nn.
  all: onum; try lra.
  apply Rmax_lub_lt; lra.
Qed.
Lemma leaky_ordered : ordered_setpoints leaky.
Proof. unfold ordered_setpoints. onum. lra. Qed.
Lemma leaky_slow : mass_slow leaky.
Proof. exact office_slow. Qed.
Lemma leaky_sources : sources_ok leaky.
Proof. destruct office_sources. constructor; try assumption. onum. lra. Qed.
Lemma leaky_timetable : timetable_of leaky one_hour.
Proof.
  unfold timetable_of. onum. cbn [one_hour tt_firstHour tt_lastHour tt_firstDay tt_lastDay].
  replace (0/1) with (IZR 0) by lra. rewrite !Rtoint_IZR by (unfold int_max; lia). auto.
Qed.
Lemma leaky_runs x y : exists raw r, simulateRaw (map_params Fin (set_appliances leaky x y)) (map (map_weather Fin) calm_year) no_ratios = Ok (raw, r).
Proof.
  unfold calm_year. rewrite map_repeat. apply simulateRaw_ok.
  - unfold ints_ok. change (pa_population (map_params Fin (set_appliances leaky x y))) with (@mkPopulation xr (zn 0) (zn 0) (zn 0) (zn 0) (zn 1) (zn 1) (zn 1)).
    cbn [po_daysStart po_daysEnd po_hoursStart po_hoursEnd].
    rewrite !ntrunc_zn by (unfold int_max; lia). repeat split; discriminate.
  - reflexivity.
  - rewrite repeat_length. lia.
  - intros w Hw. apply repeat_spec in Hw. subst w. reflexivity.
Qed.

(** ** A network in the frost whose only gain goes to the air *)
Section Cold.
Variable x : rc.
Hypothesis (HX : rc_positive x) (HC : slow_net x) (O : rc_out x = 0) (S0 : rc_sup x = 0) (G1 : rc_phi_st x = 0) (G2 : rc_phi_m x = 0).
Lemma cold_eqs q m0 m s a : rc_balance x q m0 m s a ->
  - (rc_ve x * a) + rc_is x * (s - a) + (rc_phi_ia x + q) = 0 /\ rc_is x * (a - s) - rc_w x * s + rc_ms x * ((m0 + m) / 2 - s) + 0 = 0 /\
  rc_C x / 3.6 * (m - m0) = rc_ms x * (s - (m0 + m) / 2) - rc_em x * ((m0 + m) / 2) + 0.
Proof. intros (A1 & A2 & A3). cbv zeta in *. rewrite O, G1 in A2. rewrite O, G2 in A3. rewrite S0 in A1. repeat split; lra. Qed.
Lemma cold_mass q m0 m s a B : rc_balance x q m0 m s a -> 0 <= a <= B -> 0 <= m0 <= B -> 0 <= s <= B /\ 0 <= m <= B.
Proof.
  intros E A M. destruct (cold_eqs _ _ _ _ _ E) as (E1 & E2 & E3). pose proof HX as (X1 & X2 & X3 & X4 & X5 & X6).
  destruct (warm_mass _ _ _ _ _ X2 X3 X4 X5 HC _ _ _ _ _ _ E2 E3) as [L1 L2]; try lra.
  assert (P1 : 0 <= rc_w x * B) by (apply Rmult_le_pos; lra). assert (P2 : 0 <= rc_em x * B) by (apply Rmult_le_pos; lra).
  destruct (warm_mass _ _ _ _ _ X2 X3 X4 X5 HC (B - a) (B - s) (B - m0) (B - m) (rc_w x * B) (rc_em x * B)) as [U1 U2]; try lra.
Qed.
Lemma cold_free m0 m s f B : rc_phi_ia x = 0 -> rc_balance x 0 m0 m s f -> 0 <= m0 <= B -> 0 <= f <= B.
Proof.
  intros G E M. destruct (cold_eqs _ _ _ _ _ E) as (E1 & E2 & E3). rewrite G in E1. pose proof HX as (X1 & X2 & X3 & X4 & X5 & X6).
  split.
  - apply (warm_free _ _ _ _ _ _ f s m0 m 0 0 0 X1 X2 X3 X4 X5 HC); lra.
  - assert (P0 : 0 <= rc_ve x * B) by (apply Rmult_le_pos; lra). assert (P1 : 0 <= rc_w x * B) by (apply Rmult_le_pos; lra). assert (P2 : 0 <= rc_em x * B) by (apply Rmult_le_pos; lra).
    pose proof (warm_free _ _ _ _ _ _ (B - f) (B - s) (B - m0) (B - m) (rc_ve x * B) (rc_w x * B) (rc_em x * B) X1 X2 X3 X4 X5 HC). lra.
Qed.
(** Much gain: the air reaches the cooling set-point. *)
Lemma hot_step lo hi m0 m a qh qc : lo <= hi -> 0 <= hi -> 0 <= m0 <= hi -> hi * (rc_ve x + rc_is x) <= rc_phi_ia x -> iso_step x lo hi m0 m a qh qc -> a = hi /\ 0 <= m <= hi.
Proof.
  intros LH H0 M G ((f & (u & v & F) & T) & (s & B) & _).
  destruct (cold_eqs _ _ _ _ _ F) as (E1 & E2 & E3). pose proof HX as (X1 & X2 & X3 & X4 & X5 & X6).
  assert (GP : 0 <= rc_phi_ia x). { assert (0 <= hi * (rc_ve x + rc_is x)) by (apply Rmult_le_pos; lra). lra. }
  assert (F0 : 0 <= f) by (apply (warm_free _ _ _ _ _ _ f v m0 u (rc_phi_ia x) 0 0 X1 X2 X3 X4 X5 HC); lra).
  destruct (warm_mass _ _ _ _ _ X2 X3 X4 X5 HC _ _ _ _ _ _ E2 E3) as [L1 L2]; try lra.
  assert (0 <= rc_is x * v) by (apply Rmult_le_pos; lra).
  assert (F1 : hi <= f) by (apply Rmult_le_reg_r with (rc_ve x + rc_is x); lra).
  assert (A : a = hi) by (rewrite T; unfold clamp; rewrite Rmin_left by lra; rewrite Rmax_right; lra). split; [exact A|].
  apply (cold_mass _ _ _ _ _ hi B); [rewrite A; lra|exact M].
Qed.
(** No gain: the air stays below the mass. *)
Lemma idle_step lo hi m0 m a qh qc B : lo <= 0 -> B <= hi -> 0 <= m0 <= B -> rc_phi_ia x = 0 -> iso_step x lo hi m0 m a qh qc -> 0 <= a <= B /\ 0 <= m <= B.
Proof.
  intros L H M G ((f & (u & v & F) & T) & (s & E) & _). pose proof (cold_free _ _ _ _ B G F M) as K.
  assert (A : a = f) by (rewrite T; unfold clamp; rewrite Rmin_right by lra; rewrite Rmax_right; lra). rewrite A in *. split; [exact K|]. exact (proj2 (cold_mass _ _ _ _ _ B E K M)).
Qed.
(** Heating to [lo]. *)
Lemma heated_step lo hi m0 m a qh qc B : 0 < lo <= hi -> 0 <= m0 <= B -> lo <= B -> rc_phi_ia x = 0 -> rc_is x * B <= (rc_ve x + rc_is x) * lo ->
  iso_step x lo hi m0 m a qh qc -> (rc_ve x + rc_is x) * lo - rc_is x * B <= qh <= (rc_ve x + rc_is x) * lo.
Proof.
  intros L M LB G S ((f & (u & v & F) & T) & (s & E) & P1 & P2 & P3). pose proof (cold_free _ _ _ _ B G F M) as K.
  destruct (cold_mass _ _ _ _ _ B F K M) as [V _]. destruct (cold_eqs _ _ _ _ _ F) as (E1 & _). pose proof HX as (X1 & X2 & X3 & X4 & X5 & X6).
  assert (rc_is x * v <= rc_is x * B) by (apply Rmult_le_compat_l; lra).
  assert (F1 : f <= lo) by (apply Rmult_le_reg_r with (rc_ve x + rc_is x); lra).
  assert (A : a = lo) by (rewrite T; unfold clamp; rewrite Rmin_right by lra; rewrite Rmax_left; lra). rewrite A in E.
  destruct (cold_mass _ _ _ _ _ B E ltac:(lra) M) as [W _]. destruct (cold_eqs _ _ _ _ _ E) as (D1 & _). rewrite G in D1.
  assert (0 <= rc_is x * s) by (apply Rmult_le_pos; lra). assert (rc_is x * s <= rc_is x * B) by (apply Rmult_le_compat_l; lra).
  assert (0 <= qh - qc) by lra. assert (qc = 0) by (destruct P3 as [-> | ->]; lra). subst qc. lra.
Qed.
End Cold.

(** ** The hours of the leaky building *)
Definition lc : R := 0.34 * (0.0146 * sp_leak leaky).
Lemma Rpow_one y : Rpow 1 y = 1.
Proof. unfold Rpow. destruct (Rlt_dec 0 1); [|lra]. unfold Rpower. rewrite ln_1, Rmult_0_r. apply exp_0. Qed.
Lemma Rpow_zero y : 0 < y -> Rpow 0 y = 0.
Proof. intros Y. unfold Rpow. destruct (Rlt_dec 0 0); [lra|]. destruct (Req_EM_T y 0); [lra|]. destruct (Req_EM_T 0 0); lra. Qed.
Lemma Rpow_large : 1.2 <= Rpow 1.5 0.667.
Proof.
  unfold Rpow. destruct (Rlt_dec 0 1.5); [|lra]. unfold Rpower.
  assert (L : 1 / 3 <= ln 1.5).
  { assert (E : ln (/ 1.5) = - ln 1.5) by (apply ln_Rinv; lra). assert (K : ln (/ 1.5) <= / 1.5 - 1).
    { pose proof (exp_ineq1_le (ln (/ 1.5))) as X. rewrite exp_ln in X by (apply Rinv_0_lt_compat; lra). lra. }
    rewrite E in K. lra. }
  pose proof (exp_ineq1_le (0.667 * ln 1.5)). lra.
Qed.
Lemma leak_pos : 0 < sp_leak leaky.
Proof. unfold sp_leak. pose proof (Rmax_l (1 / 1000000) (0.19 * ve_n50 (pa_ventilation leaky) * st_buildingHeight (pa_structure leaky))). lra. Qed.
Lemma lc_large : 8 * sp_is leaky < lc /\ 0 < sp_is leaky.
Proof.
  assert (S : sp_is leaky <= 20 /\ 0 < sp_is leaky) by (unfold sp_is, sp_h_ms; onum; lra).
  split; [|apply S]. unfold lc, sp_leak. pose proof (Rmax_r (1 / 1000000) (0.19 * ve_n50 (pa_ventilation leaky) * st_buildingHeight (pa_structure leaky))) as K.
  assert (N : 100000 <= 0.19 * ve_n50 (pa_ventilation leaky) * st_buildingHeight (pa_structure leaky)) by (onum; lra). lra.
Qed.

Section Leaky.
Variables (e ti : R) (k : Z).
Let q := set_appliances leaky e 0.
Let x := rc_at q one_hour k calm_hour ti.
Lemma no_flow : flow_at q one_hour k = 0.
Proof. unfold flow_at. destruct (open_hour one_hour k); [|reflexivity]. onum. lra. Qed.
Lemma no_lights : lights_at q one_hour k = 0.
Proof. unfold lights_at. destruct (occupied one_hour k); reflexivity. Qed.
Lemma calm_values : we_wind (@calm_hour R _) = 0 /\ we_temp (@calm_hour R _) = 0 /\ Forall (eq 0) (we_sol (@calm_hour R _)).
Proof. split; [onum; lra|]. split; [onum; lra|]. apply Forall_forall. intros v V. apply repeat_spec in V. subst v. onum. lra. Qed.
Lemma leaky_flow : sp_envelope q 0 0 0 ti = 0.0146 * sp_leak leaky * Rpow (0.05 * Rmax (1 / 100000) (Rabs ti)) 0.667 /\ sp_supply q 0 = 0.
Proof.
  assert (V : sp_vent q 0 = 0) by (unfold sp_vent; lra). assert (S : sp_supply q 0 = 0) by (unfold sp_supply; rewrite V; ring). split; [|exact S].
  assert (U : sp_unbalance q 0 = 0) by (unfold sp_unbalance; rewrite V, S; ring).
  assert (W : sp_wind q 0 = 0) by (unfold sp_wind; rewrite !Rmult_0_r, Rpow_zero by lra; ring).
  assert (K : sp_stack q 0 ti = 0.0146 * sp_leak leaky * Rpow (0.05 * Rmax (1 / 100000) (Rabs ti)) 0.667).
  { unfold sp_stack. change (sp_leak q) with (sp_leak leaky). replace (Rabs (0 - ti)) with (Rabs ti) by (rewrite Rminus_0_l, Rabs_Ropp; reflexivity).
    replace (Rmax (1 / 10) (ve_hzone (pa_ventilation q))) with (1 / 10) by (onum; rewrite Rmax_left; lra). do 2 f_equal. lra. }
  assert (P : 0 < sp_stack q 0 ti).
  { rewrite K. apply Rmult_lt_0_compat; [pose proof leak_pos; lra|]. apply Rpow_pos. pose proof (Rmax_l (1 / 100000) (Rabs ti)). lra. }
  unfold sp_envelope, sp_exfiltration. rewrite U, W, Rabs_R0, Rmult_0_l, Rminus_0_r. rewrite (Rmax_left (sp_stack q 0 ti) 0) by lra.
  rewrite (Rmax_left 0 0) by lra. rewrite Rmax_right by lra. rewrite K. ring.
Qed.
Lemma leaky_rc : rc_positive x /\ slow_net x /\ rc_out x = 0 /\ rc_sup x = 0 /\ rc_phi_st x = 0 /\ rc_phi_m x = 0 /\ rc_phi_ia x = equip_at q one_hour k /\
  rc_is x = sp_is leaky /\ rc_ve x = lc * Rpow (0.05 * Rmax (1 / 100000) (Rabs ti)) 0.667.
Proof.
  destruct calm_values as (C1 & C2 & C3). destruct leaky_flow as (F1 & F2).
  split; [exact (rc_at_positive q one_hour k calm_hour ti (physical_appliances leaky e 0 leaky_physical))|].
  split; [exact leaky_slow|]. unfold x, rc_at. rewrite no_flow, no_lights, C1, C2.
  unfold hour_rc. cbn [rc_out rc_sup rc_phi_st rc_phi_m rc_phi_ia rc_is rc_ve].
  rewrite (dark_solar q _ C3). unfold sp_internal, sp_mixed, sp_total. rewrite F1, F2.
  assert (FI : ss_phiIntFraction (pa_settings q) = 1) by (onum; lra). rewrite FI.
  split; [reflexivity|]. split; [unfold Rdiv; ring|]. split; [ring|]. split; [ring|]. split; [ring|]. split; [reflexivity|]. unfold lc. ring.
Qed.
End Leaky.

Lemma leaky_hours e raw r : simulateRaw (map_params Fin (set_appliances leaky e 0)) (map (map_weather Fin) calm_year) no_ratios = Ok (raw, r) ->
  exists h m0 a0 qh0 qc0 m1 a1 qh qc, nth_error raw 1 = Some h /\ hr_Qneed_ht h = Fin qh /\
  iso_step (rc_at (set_appliances leaky e 0) one_hour 0 calm_hour 20) 0 30 20 m0 a0 qh0 qc0 /\
  iso_step (rc_at (set_appliances leaky e 0) one_hour 1 calm_hour a0) 20 30 m0 m1 a1 qh qc.
Proof.
  intros H. destruct (C04_year_l (set_appliances leaky e 0) one_hour calm_year raw r (physical_appliances leaky e 0 leaky_physical) leaky_ordered leaky_timetable H) as (ns & N & E).
  pose proof (simulateRaw_length _ _ _ _ _ H) as L. clear H.
  destruct raw as [|h0 [|h raw]]; [discriminate L|discriminate L|]. clear L.
  destruct ns as [|n0 [|n ns]]; [discriminate E|discriminate E|]. cbn [map] in E. injection E as _ _ E1 _ _.
  unfold calm_year in N. change (Z.to_nat 8760) with (S (S (Z.to_nat 8758))) in N. cbn [repeat] in N.
  inversion N as [|k tm ta w ws m0 a0 qh0 qc0 needs S0 R0]; subst. inversion R0 as [|k tm ta w ws m1 a1 qh qc needs S1 R1]; subst.
  change (heat_at (set_appliances leaky e 0) one_hour 0) with (@zn R _ 0) in S0. change (cool_at (set_appliances leaky e 0) one_hour 0) with (@zn R _ 30) in S0.
  change (0 + 1)%Z with 1%Z in S1.
  change (heat_at (set_appliances leaky e 0) one_hour 1) with (@zn R _ 20) in S1. change (cool_at (set_appliances leaky e 0) one_hour 1) with (@zn R _ 30) in S1.
  replace (@zn R _ 0) with 0 in S0 by (num; lra). replace (@zn R _ 30) with 30 in S0, S1 by (num; lra). replace (@zn R _ 20) with 20 in S1 by (num; lra).
  exists h, m0, a0, qh0, qc0, m1, a1, qh, qc. split; [reflexivity|]. split; [exact E1|]. split; [exact S0|exact S1].
Qed.

Lemma C93_refuted_l : exists p x y tt ws raw raw' r r' k h h' q q',
  physical p /\ ordered_setpoints p /\ mass_slow p /\ sources_ok p /\ timetable_of p tt /\
  bu_elecApplianceOcc (pa_building p) <= x /\ bu_elecApplianceUnocc (pa_building p) <= y /\
  simulateRaw (map_params Fin p) (map (map_weather Fin) ws) no_ratios = Ok (raw, r) /\
  simulateRaw (map_params Fin (set_appliances p x y)) (map (map_weather Fin) ws) no_ratios = Ok (raw', r') /\
  nth_error raw k = Some h /\ nth_error raw' k = Some h' /\ hr_Qneed_ht h = Fin q /\ hr_Qneed_ht h' = Fin q' /\ q < q'.
Proof.
  destruct lc_large as [LC LI]. set (e := 30 * (lc + sp_is leaky)).
  assert (E0 : 0 <= e) by (unfold e; lra).
  destruct (leaky_runs 0 0) as (raw & r & H). destruct (leaky_runs e 0) as (raw' & r' & H').
  destruct (leaky_hours 0 raw r H) as (h & m0 & a0 & qh0 & qc0 & m1 & a1 & qh & qc & N & Q & S0 & S1).
  destruct (leaky_hours e raw' r' H') as (h' & m0' & a0' & qh0' & qc0' & m1' & a1' & qh' & qc' & N' & Q' & S0' & S1').
  exists leaky, e, 0, one_hour, calm_year, raw, raw', r, r', 1%nat, h, h', qh, qh'.
  split; [exact leaky_physical|]. split; [exact leaky_ordered|]. split; [exact leaky_slow|]. split; [exact leaky_sources|]. split; [exact leaky_timetable|].
  split; [exact E0|]. split; [apply Rle_refl|]. split; [exact H|]. split; [exact H'|]. split; [exact N|]. split; [exact N'|]. split; [exact Q|]. split; [exact Q'|].
  clear H H' N N' Q Q'.
  destruct (leaky_rc 0 20 0) as (X1 & X2 & X3 & X4 & X5 & X6 & X7 & X8 & X9).
  assert (B0 : 0 <= a0 <= 20 /\ 0 <= m0 <= 20) by (apply (idle_step _ X1 X2 X3 X4 X5 X6 0 30 20 m0 a0 qh0 qc0 20); try lra; [exact X7|exact S0]).
  destruct (leaky_rc e 20 0) as (Y1 & Y2 & Y3 & Y4 & Y5 & Y6 & Y7 & Y8 & Y9).
  assert (B0' : a0' = 30 /\ 0 <= m0' <= 30).
  { apply (hot_step _ Y1 Y2 Y3 Y4 Y5 Y6 0 30 20 m0' a0' qh0' qc0'); try lra; [|exact S0'].
    rewrite Y7, Y8, Y9. change (equip_at (set_appliances leaky e 0) one_hour 0) with e.
    replace (0.05 * Rmax (1 / 100000) (Rabs 20)) with 1; [rewrite Rpow_one; unfold e; lra|]. rewrite Rabs_right, Rmax_right by lra. lra. }
  destruct B0 as [A0 M0]. destruct B0' as [A0' M0']. rewrite A0' in S1'.
  destruct (leaky_rc 0 a0 1) as (U1 & U2 & U3 & U4 & U5 & U6 & U7 & U8 & U9). destruct (leaky_rc e 30 1) as (V1 & V2 & V3 & V4 & V5 & V6 & V7 & V8 & V9).
  assert (P1 : rc_ve (rc_at (set_appliances leaky 0 0) one_hour 1 calm_hour a0) <= lc).
  { rewrite U9. assert (K : Rpow (0.05 * Rmax (1 / 100000) (Rabs a0)) 0.667 <= 1).
    { apply Rle_trans with (Rpow 1 0.667); [|rewrite Rpow_one; lra]. apply Rpow_mono; [pose proof (Rmax_l (1 / 100000) (Rabs a0)); lra| |lra].
      assert (Rmax (1 / 100000) (Rabs a0) <= 20) by (apply Rmax_lub; [lra|rewrite Rabs_right; lra]). lra. }
    assert (lc * Rpow (0.05 * Rmax (1 / 100000) (Rabs a0)) 0.667 <= lc * 1) by (apply Rmult_le_compat_l; lra). lra. }
  assert (P2 : 1.2 * lc <= rc_ve (rc_at (set_appliances leaky e 0) one_hour 1 calm_hour 30)).
  { rewrite V9. replace (0.05 * Rmax (1 / 100000) (Rabs 30)) with 1.5 by (rewrite Rabs_right, Rmax_right by lra; lra).
    assert (lc * 1.2 <= lc * Rpow 1.5 0.667) by (apply Rmult_le_compat_l; [lra|exact Rpow_large]). lra. }
  assert (P0 : 0 < rc_ve (rc_at (set_appliances leaky 0 0) one_hour 1 calm_hour a0)) by apply U1.
  pose proof (heated_step _ U1 U2 U3 U4 U5 U6 20 30 m0 m1 a1 qh qc 20 ltac:(lra) M0 ltac:(lra) U7 ltac:(rewrite U8; lra) S1) as K.
  pose proof (heated_step _ V1 V2 V3 V4 V5 V6 20 30 m0' m1' a1' qh' qc' 30 ltac:(lra) M0' ltac:(lra) V7 ltac:(rewrite V8; lra) S1') as K'.
  rewrite U8 in K. rewrite V8 in K'. lra.
Qed.
