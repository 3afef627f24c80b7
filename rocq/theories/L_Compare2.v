(** Comparison of two thermostat steps, and of two calculated hours. *)
From Coq Require Import Reals Lra Psatz ZArith List.
From Verif Require Import Base Num Xr M_Params M_Hourly M_Map S_RC S_Physical S_Network S_Year S_HourSpec S_Balance S_Compare
  L_Xr L_HourlyR L_HourlySpec L_HourlyFin L_HourlyFin2 L_HourlyShape L_HourlyRun L_HourlyThm L_HourlyThm2 L_Compare.
Import ListNotations.
Open Scope R_scope.

Record same_net (x x' : rc) : Prop := {
  sn_ve : rc_ve x' = rc_ve x; sn_is : rc_is x' = rc_is x; sn_w : rc_w x' = rc_w x; sn_ms : rc_ms x' = rc_ms x; sn_em : rc_em x' = rc_em x;
  sn_C : rc_C x' = rc_C x; sn_out : rc_out x' = rc_out x; sn_sup : rc_sup x' = rc_sup x }.
Lemma same_net_refl x : same_net x x. Proof. constructor; reflexivity. Qed.
Definition slow_net (x : rc) : Prop := (rc_ms x + rc_em x) / 2 <= rc_C x / 3.6.

Section Two.
Variables x x' : rc.
Hypothesis (HX : rc_positive x) (HN : same_net x x') (HC : slow_net x).
Let ga := rc_phi_ia x' - rc_phi_ia x.
Let gs := rc_phi_st x' - rc_phi_st x.
Let gm := rc_phi_m x' - rc_phi_m x.

Lemma balance_diff q q' m0 m0' m m' s s' a a' : rc_balance x q m0 m s a -> rc_balance x' q' m0' m' s' a' ->
  - (rc_ve x * (a' - a)) + rc_is x * ((s' - s) - (a' - a)) + ga + (q' - q) = 0 /\
  rc_is x * ((a' - a) - (s' - s)) - rc_w x * (s' - s) + rc_ms x * (((m0' - m0) + (m' - m)) / 2 - (s' - s)) + gs = 0 /\
  rc_C x / 3.6 * ((m' - m) - (m0' - m0)) = rc_ms x * ((s' - s) - ((m0' - m0) + (m' - m)) / 2) - rc_em x * (((m0' - m0) + (m' - m)) / 2) + gm.
Proof.
  intros (A1 & A2 & A3) (B1 & B2 & B3). destruct HN as [E1 E2 E3 E4 E5 E6 E7 E8]. rewrite E1, E2, E8 in B1. rewrite E2, E3, E4, E7 in B2. rewrite E4, E5, E6, E7 in B3.
  unfold ga, gs, gm. cbv zeta in *. repeat split; lra.
Qed.
Lemma free_mono m0 m0' m m' s s' a a' : rc_balance x 0 m0 m s a -> rc_balance x' 0 m0' m' s' a' -> m0 <= m0' -> 0 <= ga -> 0 <= gs -> 0 <= gm -> a <= a'.
Proof.
  intros A B D GA GS GM. destruct (balance_diff _ _ _ _ _ _ _ _ _ _ A B) as (E1 & E2 & E3). destruct HX as (X1 & X2 & X3 & X4 & X5 & X6).
  pose proof (warm_free _ _ _ _ _ _ (a' - a) (s' - s) (m0' - m0) (m' - m) ga gs gm X1 X2 X3 X4 X5 HC). lra.
Qed.
Lemma masses_mono q q' m0 m0' m m' s s' a a' : rc_balance x q m0 m s a -> rc_balance x' q' m0' m' s' a' -> a <= a' -> m0 <= m0' -> 0 <= gs -> 0 <= gm ->
  s <= s' /\ m <= m'.
Proof.
  intros A B DA D GS GM. destruct (balance_diff _ _ _ _ _ _ _ _ _ _ A B) as (E1 & E2 & E3). destruct HX as (X1 & X2 & X3 & X4 & X5 & X6).
  pose proof (warm_mass _ _ _ _ _ X2 X3 X4 X5 HC _ _ _ _ _ _ E2 E3). lra.
Qed.
Lemma plant_less q q' m0 m0' m m' s s' a : rc_balance x q m0 m s a -> rc_balance x' q' m0' m' s' a -> m0 <= m0' -> 0 <= ga -> 0 <= gs -> 0 <= gm -> q' <= q.
Proof.
  intros A B D GA GS GM. destruct (masses_mono _ _ _ _ _ _ _ _ _ _ A B (Rle_refl a) D GS GM) as [S _].
  destruct (balance_diff _ _ _ _ _ _ _ _ _ _ A B) as (E1 & _). destruct HX as (X1 & X2 & _). assert (0 <= rc_is x * (s' - s)) by (apply Rmult_le_pos; lra). lra.
Qed.
Lemma plant_saved q q' m0 m m' s s' a a' : rc_balance x q m0 m s a -> rc_balance x' q' m0 m' s' a' -> a <= a' -> 0 <= gs -> 0 <= gm -> q - q' <= ga + gs + gm.
Proof.
  intros A B D GS GM. destruct (masses_mono _ _ _ _ _ _ _ _ _ _ A B D (Rle_refl m0) GS GM) as [S M].
  destruct (balance_diff _ _ _ _ _ _ _ _ _ _ A B) as (E1 & E2 & E3). destruct HX as (X1 & X2 & X3 & X4 & X5 & X6).
  assert (0 <= rc_ve x * (a' - a)) by (apply Rmult_le_pos; lra). assert (0 <= rc_w x * (s' - s)) by (apply Rmult_le_pos; lra).
  assert (0 <= rc_em x * ((m0 - m0 + (m' - m)) / 2)) by (apply Rmult_le_pos; lra). assert (0 <= rc_C x / 3.6 * (m' - m - (m0 - m0))) by (apply Rmult_le_pos; lra). lra.
Qed.
End Two.
Lemma plant_more x q q' m0 m m' s s' a a' : rc_positive x -> slow_net x -> rc_balance x q m0 m s a -> rc_balance x q' m0 m' s' a' -> a <= a' -> q <= q'.
Proof.
  intros HX HC A B D. destruct (balance_diff x x (same_net_refl x) _ _ _ _ _ _ _ _ _ _ A B) as (E1 & E2 & E3). pose proof HX as (X1 & X2 & X3 & X4 & X5 & X6).
  pose proof (surface_follows _ _ _ _ _ X2 X3 X4 X5 HC _ _ _ _ _ _ E2 E3) as K.
  assert (0 <= rc_ve x * (a' - a)) by (apply Rmult_le_pos; lra). assert (0 <= rc_is x * (a' - a - (s' - s))) by (apply Rmult_le_pos; lra). lra.
Qed.

Lemma parts_mono qh qc qh' qc' : 0 <= qh -> 0 <= qc -> 0 <= qh' -> 0 <= qc' -> (qh = 0 \/ qc = 0) -> (qh' = 0 \/ qc' = 0) -> qh - qc <= qh' - qc' ->
  qh <= qh' /\ qc' <= qc.
Proof. intros ? ? ? ? [-> | ->] [-> | ->] ?; lra. Qed.

(** Two controlled steps of the same network. *)
Lemma steps_warmer x x' lo hi lo' hi' m0 m0' m m' a a' qh qc qh' qc' : rc_positive x -> same_net x x' -> slow_net x ->
  rc_phi_ia x <= rc_phi_ia x' -> rc_phi_st x <= rc_phi_st x' -> rc_phi_m x <= rc_phi_m x' -> m0 <= m0' -> lo <= lo' -> hi <= hi' ->
  iso_step x lo hi m0 m a qh qc -> iso_step x' lo' hi' m0' m' a' qh' qc' -> a <= a' /\ m <= m'.
Proof.
  intros HX HN HC G1 G2 G3 D L H ((f & (u & v & F) & T) & (s & B) & _) ((f' & (u' & v' & F') & T') & (s' & B') & _).
  assert (K : f <= f') by (eapply (free_mono x x'); eauto; lra).
  assert (A : a <= a') by (subst a a'; apply clamp_mono; assumption). split; [exact A|].
  eapply (masses_mono x x' HX HN HC); eauto; lra.
Qed.
Lemma steps_saved x x' lo hi lo' hi' m0 m m' a a' qh qc qh' qc' : rc_positive x -> same_net x x' -> slow_net x ->
  rc_phi_ia x <= rc_phi_ia x' -> rc_phi_st x <= rc_phi_st x' -> rc_phi_m x <= rc_phi_m x' -> lo <= lo' -> hi <= hi' ->
  iso_step x lo hi m0 m a qh qc -> iso_step x' lo' hi' m0 m' a' qh' qc' ->
  let g := rc_phi_ia x' - rc_phi_ia x + (rc_phi_st x' - rc_phi_st x) + (rc_phi_m x' - rc_phi_m x) in
  qh - qh' <= g /\ qc' - qc <= g.
Proof.
  intros HX HN HC G1 G2 G3 L H S S' g. destruct (steps_warmer _ _ _ _ _ _ _ _ _ _ _ _ _ _ _ _ HX HN HC G1 G2 G3 (Rle_refl m0) L H S S') as [A _].
  destruct S as (_ & (s & B) & P1 & P2 & P3). destruct S' as (_ & (s' & B') & P1' & P2' & P3').
  assert (K : qh - qc - (qh' - qc') <= g) by (unfold g; eapply (plant_saved x x' HX HN HC); eauto; lra).
  assert (0 <= g) by (unfold g; lra). destruct P3 as [-> | ->], P3' as [-> | ->]; lra.
Qed.
Lemma steps_less x x' lo hi m0 m0' m m' a a' qh qc qh' qc' : rc_positive x -> same_net x x' -> slow_net x -> lo <= hi ->
  rc_phi_ia x <= rc_phi_ia x' -> rc_phi_st x <= rc_phi_st x' -> rc_phi_m x <= rc_phi_m x' -> m0 <= m0' ->
  iso_step x lo hi m0 m a qh qc -> iso_step x' lo hi m0' m' a' qh' qc' -> qh' <= qh /\ qc <= qc'.
Proof.
  intros HX HN HC LH G1 G2 G3 D ((f & (u & v & F) & T) & (s & B) & P1 & P2 & P3) ((f' & (u' & v' & F') & T') & (s' & B') & P1' & P2' & P3').
  assert (K : f <= f') by (eapply (free_mono x x'); eauto; lra).
  assert (HX' : rc_positive x'). { destruct HN as [E1 E2 E3 E4 E5 E6 _ _]. unfold rc_positive. rewrite E1, E2, E3, E4, E5, E6. exact HX. }
  assert (HC' : slow_net x'). { destruct HN as [E1 E2 E3 E4 E5 E6 _ _]. unfold slow_net. rewrite E4, E5, E6. exact HC. }
  assert (U : f <= a -> 0 <= qh - qc) by (intros; eapply (plant_more x); eauto).
  assert (V : a <= f -> qh - qc <= 0) by (intros; eapply (plant_more x); eauto).
  assert (U' : f' <= a' -> 0 <= qh' - qc') by (intros; eapply (plant_more x'); eauto).
  assert (V' : a' <= f' -> qh' - qc' <= 0) by (intros; eapply (plant_more x'); eauto).
  assert (W : a = a' -> qh' - qc' <= qh - qc). { intros E. rewrite <- E in B'. eapply (plant_less x x' HX HN HC); eauto; lra. }
  assert (T1 : (f <= lo /\ a = lo) \/ (lo < f < hi /\ a = f) \/ (hi <= f /\ lo < f /\ a = hi)).
  { rewrite T. unfold clamp. destruct (Rle_lt_dec f lo); [left|right].
    - rewrite Rmin_right by lra. rewrite Rmax_left by lra. auto.
    - destruct (Rle_lt_dec hi f); [right; rewrite Rmin_left by lra; rewrite Rmax_right by lra; lra|left; rewrite Rmin_right by lra; rewrite Rmax_right by lra; lra]. }
  assert (T2 : (f' <= lo /\ a' = lo) \/ (lo < f' < hi /\ a' = f') \/ (hi <= f' /\ lo < f' /\ a' = hi)).
  { rewrite T'. unfold clamp. destruct (Rle_lt_dec f' lo); [left|right].
    - rewrite Rmin_right by lra. rewrite Rmax_left by lra. auto.
    - destruct (Rle_lt_dec hi f'); [right; rewrite Rmin_left by lra; rewrite Rmax_right by lra; lra|left; rewrite Rmin_right by lra; rewrite Rmax_right by lra; lra]. }
  clear T T' F F' B B'.
  destruct T1 as [(? & ?)|[(? & ?)|(? & ? & ?)]], T2 as [(? & ?)|[(? & ?)|(? & ? & ?)]];
    try (specialize (U ltac:(lra))); try (specialize (V ltac:(lra))); try (specialize (U' ltac:(lra))); try (specialize (V' ltac:(lra))); try (specialize (W ltac:(lra)));
    destruct P3 as [-> | ->], P3' as [-> | ->]; lra.
Qed.
Lemma steps_higher x lo hi lo' hi' m0 m m' a a' qh qc qh' qc' : rc_positive x -> slow_net x -> lo <= lo' -> hi <= hi' ->
  iso_step x lo hi m0 m a qh qc -> iso_step x lo' hi' m0 m' a' qh' qc' -> qh <= qh' /\ qc' <= qc.
Proof.
  intros HX HC L H S S'. destruct (steps_warmer x x _ _ _ _ _ _ _ _ _ _ _ _ _ _ HX (same_net_refl x) HC (Rle_refl _) (Rle_refl _) (Rle_refl _) (Rle_refl m0) L H S S') as [A _].
  destruct S as (_ & (s & B) & P1 & P2 & P3). destruct S' as (_ & (s' & B') & P1' & P2' & P3'). apply parts_mono; auto. eapply (plant_more x); eauto.
Qed.

(** ** The hours of the engine *)
Lemma hour_net_pos p i' sc w th : physical p -> 0 <= sc_vent sc -> initialize (map_params Fin p) no_ratios = Ok i' ->
  rc_positive (hour_rc p (sc_vent sc) (sc_intEquip sc) (sc_intLight sc) (we_wind w) (we_temp w) (we_sol w) (th_ti th)).
Proof. intros HP HV HI. destruct (init_cases p no_ratios i' HP HI) as (i & Ei & _ & IO). rewrite <- (hour_rc_spec p HP i Ei sc w th). apply net_positive, step_wf; auto. Qed.
Lemma hour_step p i' sc w th qh qc tm ta : physical p -> 0 <= sc_vent sc -> sc_heatSP sc <= sc_coolSP sc -> initialize (map_params Fin p) no_ratios = Ok i' ->
  hour_gives p i' sc w th qh qc tm ta ->
  iso_step (hour_rc p (sc_vent sc) (sc_intEquip sc) (sc_intLight sc) (we_wind w) (we_temp w) (we_sol w) (th_ti th))
      (sc_heatSP sc) (sc_coolSP sc) (th_TMT1 th) tm ta qh qc.
Proof.
  intros HP HV HS HI H. destruct (C04_step_l p i' sc w th HP HV HS HI) as (tm1 & ta1 & qh1 & qc1 & h & E & E1 & E2 & IS).
  unfold hour_gives in H. rewrite E in H. cbn [th_TMT1 th_ti] in H. destruct H as (A & B & C & D). rewrite A in E1. rewrite B in E2.
  injection E1 as ->. injection E2 as ->. injection C as ->. injection D as ->. exact IS.
Qed.
Section Hours.
Variables (p : params_t R) (i' : hinit xr) (sc sc' : sched R) (w : weather R) (th th' : thermal R) (qh qc tm ta qh' qc' tm' ta' : R).
Hypothesis (HP : physical p) (HM : mass_slow p) (SO : sources_ok p) (HI : initialize (map_params Fin p) no_ratios = Ok i').
Hypothesis (HV : 0 <= sc_vent sc) (HS : sc_heatSP sc <= sc_coolSP sc) (HS' : sc_heatSP sc' <= sc_coolSP sc').
Hypothesis (HH : hour_gives p i' sc w th qh qc tm ta) (HH' : hour_gives p i' sc' w th' qh' qc' tm' ta') (NC : not_colder sc sc' th th').
Let x := hour_rc p (sc_vent sc) (sc_intEquip sc) (sc_intLight sc) (we_wind w) (we_temp w) (we_sol w) (th_ti th).
Let x' := hour_rc p (sc_vent sc) (sc_intEquip sc') (sc_intLight sc) (we_wind w) (we_temp w) (we_sol w) (th_ti th).
Let gains := sc_intEquip sc' - sc_intEquip sc.
Lemma the_net : rc_positive x /\ same_net x x' /\ slow_net x.
Proof. split; [exact (hour_net_pos p i' sc w th HP HV HI)|]. split; [constructor; reflexivity|exact HM]. Qed.
Lemma the_shares : rc_phi_ia x <= rc_phi_ia x' /\ rc_phi_st x <= rc_phi_st x' /\ rc_phi_m x <= rc_phi_m x' /\
  rc_phi_ia x' - rc_phi_ia x + (rc_phi_st x' - rc_phi_st x) + (rc_phi_m x' - rc_phi_m x) <= gains.
Proof.
  pose proof (so_fint p SO) as F. pose proof (so_surface p SO) as SU. pose proof (nc_equip _ _ _ _ NC) as Q.
  pose proof (phy_tapfa p HP) as PT.
  set (f := ss_phiIntFraction (pa_settings p)) in *. set (T := st_totalAreaPerFloorArea (pa_structure p)) in *.
  assert (M : 2.5 <= sp_mass_area (sp_capacity p)) by (unfold sp_mass_area, clamp; pose proof (Rmax_l 0 (Rmin 1 ((sp_capacity p - 165) / 95))); pose proof (Rmax_l 0 (Rmin 1 ((sp_capacity p - 260) / 110))); lra).
  assert (W : 0 <= sp_windows p / sp_h_ms p) by (destruct the_net as ((_ & _ & X & _) & _); change (0 <= sp_windows p) in X; pose proof (phy_hci p HP); pose proof (phy_hri p HP); apply Rmult_le_pos; [exact X|apply Rlt_le, Rinv_0_lt_compat; unfold sp_h_ms; lra]).
  set (am := sp_mass_area (sp_capacity p)) in *. set (wh := sp_windows p / sp_h_ms p) in *.
  assert (G : 0 <= gains) by (unfold gains; lra).
  assert (D1 : rc_phi_ia x' - rc_phi_ia x = f * gains) by (unfold x, x', hour_rc, sp_internal, gains; cbn; fold f; ring).
  assert (D2 : rc_phi_st x' - rc_phi_st x = (T - am - wh) / T * ((1 - f) * gains)) by (unfold x, x', hour_rc, sp_internal, gains; cbn; fold f T am wh; ring).
  assert (D3 : rc_phi_m x' - rc_phi_m x = am / T * ((1 - f) * gains)) by (unfold x, x', hour_rc, sp_internal, gains; cbn; fold f T am wh; ring).
  assert (K : 0 <= (1 - f) * gains) by (apply Rmult_le_pos; lra). assert (TI : 0 < / T) by (apply Rinv_0_lt_compat; lra).
  assert (0 <= f * gains) by (apply Rmult_le_pos; lra).
  assert (0 <= (T - am - wh) / T * ((1 - f) * gains)) by (apply Rmult_le_pos; [apply Rmult_le_pos; lra|lra]).
  assert (0 <= am / T * ((1 - f) * gains)) by (apply Rmult_le_pos; [apply Rmult_le_pos; lra|lra]).
  assert (0 <= wh / T * ((1 - f) * gains)) by (apply Rmult_le_pos; [apply Rmult_le_pos; lra|lra]).
  assert ((T - am - wh) / T * ((1 - f) * gains) + am / T * ((1 - f) * gains) + wh / T * ((1 - f) * gains) = (1 - f) * gains) by (field; lra).
  lra.
Qed.
Lemma the_steps : iso_step x (sc_heatSP sc) (sc_coolSP sc) (th_TMT1 th) tm ta qh qc /\ iso_step x' (sc_heatSP sc') (sc_coolSP sc') (th_TMT1 th') tm' ta' qh' qc'.
Proof.
  split; [exact (hour_step p i' sc w th qh qc tm ta HP HV HS HI HH)|]. destruct NC as [N1 N2 N3 N4 N5 N6 N7].
  assert (V' : 0 <= sc_vent sc') by (rewrite N1; exact HV). pose proof (hour_step p i' sc' w th' qh' qc' tm' ta' HP V' HS' HI HH') as S. rewrite N1, N2, N3 in S. exact S.
Qed.
Lemma C90_warmer_l : ta <= ta' /\ tm <= tm'.
Proof.
  destruct the_net as (A & B & C). destruct the_shares as (D & E & F & _). destruct the_steps as [S S'].
  exact (steps_warmer x x' _ _ _ _ _ _ _ _ _ _ _ _ _ _ A B C D E F (nc_mass _ _ _ _ NC) (nc_heat _ _ _ _ NC) (nc_cool _ _ _ _ NC) S S').
Qed.
Lemma C90_saving_l : th_TMT1 th' = th_TMT1 th -> qh - qh' <= gains /\ qc' - qc <= gains.
Proof.
  intros T. destruct the_net as (A & B & C). destruct the_shares as (D & E & F & G). destruct the_steps as [S S']. rewrite T in S'.
  pose proof (steps_saved x x' _ _ _ _ _ _ _ _ _ _ _ _ _ A B C D E F (nc_heat _ _ _ _ NC) (nc_cool _ _ _ _ NC) S S') as K. cbv zeta in K. lra.
Qed.
Lemma C90_needs_l : same_setpoints sc sc' -> qh' <= qh /\ qc <= qc'.
Proof.
  intros [T1 T2]. destruct the_net as (A & B & C). destruct the_shares as (D & E & F & G). destruct the_steps as [S S']. rewrite T1, T2 in S'.
  exact (steps_less x x' _ _ _ _ _ _ _ _ _ _ _ _ A B C HS D E F (nc_mass _ _ _ _ NC) S S').
Qed.
Lemma C90_setpoints_l : same_sources sc sc' th th' -> qh <= qh' /\ qc' <= qc.
Proof.
  intros [T1 T2]. destruct the_net as (A & B & C). destruct the_steps as [S S']. unfold x' in S'. rewrite T1, T2 in S'. fold x in S'.
  exact (steps_higher x _ _ _ _ _ _ _ _ _ _ _ _ _ A C (nc_heat _ _ _ _ NC) (nc_cool _ _ _ _ NC) S S').
Qed.
End Hours.
