(** Cases for the comparison of hours. *)
From Coq Require Import Reals Lra Psatz ZArith List.
From Verif Require Import Base Num Xr M_Params M_Hourly M_Map S_RC S_Physical S_Network S_Year S_HourSpec S_Balance S_Compare E_SmallOffice
  L_Xr L_HourlyR L_HourlySpec L_HourlyFin L_HourlyFin2 L_HourlyShape L_HourlyRun L_HourlyThm L_HourlyThm2 L_HourlyThm3 L_HourlyThm4 L_Office L_Office2 L_HourlyBalance2 L_Compare L_Compare2.
Import ListNotations.
Open Scope R_scope.

Lemma C90_defined_l p i' sc w th : physical p -> 0 <= sc_vent sc -> sc_heatSP sc <= sc_coolSP sc -> initialize (map_params Fin p) no_ratios = Ok i' ->
  exists qh qc tm ta, hour_gives p i' sc w th qh qc tm ta.
Proof.
  intros HP HV HS HI. destruct (C04_step_l p i' sc w th HP HV HS HI) as (tm1 & ta1 & qh & qc & h & E & E1 & E2 & _).
  exists qh, qc, tm1, ta1. unfold hour_gives. rewrite E. auto.
Qed.
Lemma plant_excess x q q' m0 m m' s s' a a' : rc_positive x -> slow_net x -> rc_balance x q m0 m s a -> rc_balance x q' m0 m' s' a' -> a <= a' -> rc_ve x * (a' - a) <= q' - q.
Proof.
  intros HX HC A B D. destruct (balance_diff x x (same_net_refl x) _ _ _ _ _ _ _ _ _ _ A B) as (E1 & E2 & E3). pose proof HX as (X1 & X2 & X3 & X4 & X5 & X6).
  pose proof (surface_follows _ _ _ _ _ X2 X3 X4 X5 HC _ _ _ _ _ _ E2 E3) as K.
  assert (0 <= rc_is x * (a' - a - (s' - s))) by (apply Rmult_le_pos; lra). lra.
Qed.
(** Equipment of [e] W/m2 in an idle hour. *)
Definition with_equipment (e : R) (sc : sched R) : sched R :=
  {| sc_vent := sc_vent sc; sc_extEquip := sc_extEquip sc; sc_intEquip := e; sc_extLight := sc_extLight sc; sc_intLight := sc_intLight sc;
     sc_heatSP := sc_heatSP sc; sc_coolSP := sc_coolSP sc |}.
Lemma office_sources : sources_ok still_office.
Proof. exact (proj1 (proj2 (proj2 (proj2 (proj2 C79_case_l))))). Qed.
Lemma C90_case_l : exists i', physical still_office /\ mass_slow still_office /\ sources_ok still_office /\ initialize (map_params Fin still_office) no_ratios = Ok i' /\
  not_colder (idle_sched 20 26) (with_equipment 5 (idle_sched 20 26)) {| th_TMT1 := 0; th_ti := 18 |} {| th_TMT1 := 0; th_ti := 18 |} /\
  exists qh qc tm ta, hour_gives still_office i' (idle_sched 20 26) (dark_hour 0) {| th_TMT1 := 0; th_ti := 18 |} qh qc tm ta /\ 0 < qh.
Proof.
  destruct (initialize_fin still_office still_physical no_ratios) as (i & _ & E). exists (map_hinit Fin i).
  split; [exact still_physical|]. split; [exact office_slow|]. split; [exact office_sources|]. split; [exact E|].
  split; [constructor; cbn; lra|].
  assert (V : 0 <= sc_vent (idle_sched 20 26)) by apply Rle_refl. assert (S : sc_heatSP (idle_sched 20 26) <= sc_coolSP (idle_sched 20 26)) by (cbn; lra).
  destruct (C90_defined_l still_office _ _ (dark_hour 0) {| th_TMT1 := 0; th_ti := 18 |} still_physical V S E) as (qh & qc & tm & ta & H).
  exists qh, qc, tm, ta. split; [exact H|].
  pose proof (hour_step _ _ _ _ _ _ _ _ _ still_physical V S E H) as IS. pose proof (hour_net_pos still_office _ (idle_sched 20 26) (dark_hour 0) {| th_TMT1 := 0; th_ti := 18 |} still_physical V E) as PX.
  assert (SX : slow_net (hour_rc still_office (sc_vent (idle_sched 20 26)) (sc_intEquip (idle_sched 20 26)) (sc_intLight (idle_sched 20 26)) (we_wind (dark_hour 0)) (we_temp (dark_hour 0)) (we_sol (dark_hour 0)) (th_ti {| th_TMT1 := 0; th_ti := 18 |}))) by exact office_slow.
  assert (Q : quiet still_office 0 0 (idle_sched 0 0) (dark_hour 0)).
  { assert (T : sp_supplied still_office 0 = 0) by (apply office_supplied; lra).
    constructor; cbn [idle_sched sc_vent sc_intEquip sc_intLight sc_heatSP sc_coolSP dark_hour we_temp]; rewrite ?T; try lra; try reflexivity. apply Forall_dark. }
  destruct (quiet_rc still_office 0 0 _ _ 18 still_physical Q) as ((G1 & G2 & G3) & O & SU).
  cbn [idle_sched sc_vent sc_intEquip sc_intLight sc_heatSP sc_coolSP th_ti th_TMT1] in *.
  set (x := hour_rc still_office 0 0 0 (we_wind (dark_hour 0)) (we_temp (dark_hour 0)) (we_sol (dark_hour 0)) 18) in *.
  assert (Z : rc_balance x 0 0 0 0 0). { assert (O1 : rc_out x = 0) by lra. assert (S1 : rc_sup x = 0) by lra. unfold rc_balance. cbv zeta. rewrite O1, S1, G1, G2, G3. repeat split; lra. }
  destruct IS as ((f & (u & v & F) & T) & (s & B) & P1 & P2 & P3).
  assert (A : 20 <= ta) by (rewrite T; unfold clamp; apply Rmax_l).
  pose proof (plant_excess x _ _ _ _ _ _ _ _ _ PX SX Z B ltac:(lra)) as K. destruct PX as (X1 & _).
  assert (0 < rc_ve x * (ta - 0)) by (apply Rmult_lt_0_compat; lra). lra.
Qed.
(** Without heat capacity a warmer mass may become a colder one. *)
Lemma C90_light_l : exists p i' sc w th th' tm ta qh qc tm' ta' qh' qc', physical p /\ initialize (map_params Fin p) no_ratios = Ok i' /\
  0 <= sc_vent sc /\ sc_heatSP sc <= sc_coolSP sc /\ not_colder sc sc th th' /\
  hour_gives p i' sc w th qh qc tm ta /\ hour_gives p i' sc w th' qh' qc' tm' ta' /\ tm' < tm.
Proof.
  destruct (initialize_fin light_office light_physical no_ratios) as (i & _ & E).
  assert (V : 0 <= sc_vent (idle_sched 0 20)) by apply Rle_refl. assert (S : sc_heatSP (idle_sched 0 20) <= sc_coolSP (idle_sched 0 20)) by (cbn; lra).
  destruct (C90_defined_l light_office _ _ (dark_hour 0) {| th_TMT1 := 10; th_ti := 20 |} light_physical V S E) as (qh & qc & tm & ta & H).
  destruct (C90_defined_l light_office _ _ (dark_hour 0) {| th_TMT1 := 20; th_ti := 20 |} light_physical V S E) as (qh' & qc' & tm' & ta' & H').
  exists light_office, (map_hinit Fin i), (idle_sched 0 20), (dark_hour 0), {| th_TMT1 := 10; th_ti := 20 |}, {| th_TMT1 := 20; th_ti := 20 |}, tm, ta, qh, qc, tm', ta', qh', qc'.
  split; [exact light_physical|]. split; [exact E|]. split; [exact V|]. split; [exact S|]. split; [constructor; cbn; lra|]. split; [exact H|]. split; [exact H'|].
  assert (J : forall t q1 q2 m a, hour_gives light_office (map_hinit Fin i) (idle_sched 0 20) (dark_hour 0) {| th_TMT1 := t; th_ti := 20 |} q1 q2 m a -> m = - t).
  { intros t q1 q2 m a G. pose proof (massless_jump light_office (map_hinit Fin i) (idle_sched 0 20) (dark_hour 0) t 20 light_physical E light_capacity) as M.
    specialize (M ltac:(apply (light_quiet 0 0 0 0 0); lra) ltac:(cbn; lra)). unfold hour_gives in G.
    destruct (calculateHour _ _ _ _ _) as [h th]. cbn [snd] in M. destruct G as (_ & _ & G & _). rewrite M in G. injection G as <-. reflexivity. }
  rewrite (J _ _ _ _ _ H), (J _ _ _ _ _ H'). lra.
Qed.
