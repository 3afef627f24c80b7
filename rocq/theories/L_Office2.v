(** Facts about the small office used to show that the hypotheses of the [T_*] theorems are met. *)
From Coq Require Import Reals Lra ZArith List Bool Lia.
From Verif Require Import Base Num Xr M_Params M_Hourly M_Map E_SmallOffice S_Physical S_RC S_Network S_Year S_HourSpec S_Edit
  L_Xr L_HourlyShape L_HourlyFin L_HourlyFin2 L_HourlySpec L_HourlyRun L_HourlyThm L_HourlyThm2 L_Office.
Import ListNotations.
Open Scope R_scope.

Notation office := (@smallOffice R R_num).
Definition office_hours : timetable := {| tt_firstHour := 8; tt_lastHour := 17; tt_firstDay := 1; tt_lastDay := 5 |}.

Ltac onum := cbn; cbv [zn]; cbn; cbv [Rlit].
Lemma office_ordered : ordered_setpoints office.
Proof. unfold ordered_setpoints. onum. lra. Qed.
Lemma office_timetable : timetable_of office office_hours.
Proof.
  unfold timetable_of. onum. cbn [office_hours tt_firstHour tt_lastHour tt_firstDay tt_lastDay].
  replace (8/1) with (IZR 8) by lra. replace (17/1) with (IZR 17) by lra. replace (1/1) with (IZR 1) by lra. replace (5/1) with (IZR 5) by lra.
  rewrite !Rtoint_IZR by (unfold int_max; lia). auto.
Qed.
Lemma office_daylit : daylit office.
Proof. constructor; onum; try lra. nn. Qed.
Lemma map_repeat {A B} (f : A -> B) x n : map f (repeat x n) = repeat (f x) n.
Proof. induction n as [|n IH]; [reflexivity|]. cbn. rewrite IH. reflexivity. Qed.
Lemma map_constant_year n (t : R) : map (map_weather Fin) (constant_year n t) = constant_year n (Fin t).
Proof. unfold constant_year. rewrite map_repeat. reflexivity. Qed.
Lemma office_raw t : exists raw r, simulateRaw (map_params Fin office) (map (map_weather Fin) (constant_year 8760 t)) no_ratios = Ok (raw, r).
Proof.
  rewrite map_constant_year. apply simulateRaw_ok.
  - apply office_ints.
  - reflexivity.
  - rewrite constant_year_length; lia.
  - apply constant_year_nine.
Qed.
Lemma office_init : exists i', initialize (map_params Fin office) no_ratios = Ok i'.
Proof. destruct (initialize_fin office office_physical no_ratios) as (i & _ & E). eexists. exact E. Qed.
Lemma office_fan ti : ti <= 30 -> 22 <= ti -> fan_defined office ti.
Proof.
  intros A B. pose proof Rdblmin_pos.
  unfold fan_defined, fan_den_ht, fan_den_cl. onum.
  split; apply Rgt_not_eq; apply Rplus_le_lt_0_compat; try assumption; apply Rmult_le_pos; try lra; apply Rmult_le_pos; lra.
Qed.

Lemma office_capacity : 149 <= sp_capacity office <= 150.
Proof. unfold sp_capacity, Rsum. onum. lra. Qed.
Lemma sp_mass_area_small c : c <= 165 -> sp_mass_area c = 2.5.
Proof.
  intros H. unfold sp_mass_area, clamp. rewrite (Rmax_left 0), (Rmax_left 0). { lra. }
  - eapply Rle_trans; [apply Rmin_r|]. lra.
  - eapply Rle_trans; [apply Rmin_r|]. lra.
Qed.
Lemma office_ms : sp_ms office = 22.75.
Proof.
  unfold sp_ms. rewrite sp_mass_area_small by (pose proof office_capacity; lra). unfold sp_h_ms. onum. lra.
Qed.
Lemma office_opaque : 3 <= sp_opaque office <= 4.
Proof. unfold sp_opaque, dot, Rsum. onum. unfold Rmax. destruct (Rle_dec _ _); lra. Qed.
Lemma office_slow : mass_slow office.
Proof.
  unfold mass_slow, sp_em. rewrite office_ms. pose proof office_opaque as [A B]. pose proof office_capacity as [C D].
  assert (sp_opaque office * 22.75 / (22.75 - sp_opaque office) <= 10); [|lra].
  apply Rmult_le_reg_r with (22.75 - sp_opaque office); [lra|]. unfold Rdiv. rewrite Rmult_assoc, Rinv_l by lra. lra.
Qed.

(** A dark hour at temperature [t] without equipment and lights. *)
Definition idle_sched (lo hi : R) : sched R :=
  {| sc_vent := 0; sc_extEquip := 0; sc_intEquip := 0; sc_extLight := 1; sc_intLight := 0; sc_heatSP := lo; sc_coolSP := hi |}.
Definition dark_hour (t : R) : weather R := {| we_wind := 2; we_temp := t; we_sol := repeat 0 9 |}.
Lemma Forall_dark t : Forall (eq 0) (we_sol (dark_hour t)).
Proof. cbn. repeat constructor. Qed.
Lemma office_supplied t : -50 <= t -> sp_supplied office t = t.
Proof. intros H. unfold sp_supplied. onum. rewrite Rmax_right; lra. Qed.
Lemma office_quiet a b t lo hi : a <= t <= b -> -50 <= t -> a <= lo -> lo <= hi -> hi <= b -> quiet office a b (idle_sched lo hi) (dark_hour t).
Proof. intros. constructor; cbn [idle_sched sc_vent sc_intEquip sc_intLight sc_heatSP sc_coolSP dark_hour we_temp]; rewrite ?office_supplied by lra; try lra; try reflexivity. apply Forall_dark. Qed.

(** The office without heat capacity. *)
Definition light_office : params_t R := with_structure office (with_capacities (pa_structure office) 0 0).
Lemma light_physical : physical light_office.
Proof.
  constructor; try reflexivity; try nn.
  all: onum; try lra.
  apply Rmax_lub_lt; lra.
Qed.
Lemma light_capacity : sp_capacity light_office = 0.
Proof. unfold sp_capacity. onum. lra. Qed.
Lemma light_quiet a b t lo hi : a <= t <= b -> -50 <= t -> a <= lo -> lo <= hi -> hi <= b -> quiet light_office a b (idle_sched lo hi) (dark_hour t).
Proof.
  intros. assert (S : sp_supplied light_office t = t) by (apply office_supplied; assumption).
  constructor; cbn [idle_sched sc_vent sc_intEquip sc_intLight sc_heatSP sc_coolSP dark_hour we_temp]; rewrite ?S; try lra; try reflexivity. apply Forall_dark.
Qed.
(** One quiet hour with everything in [0, 20] moves the mass from 20 to -20. *)
Lemma light_jump : exists p a b i' sc w th, physical p /\ initialize (map_params Fin p) no_ratios = Ok i' /\ quiet p a b sc w /\
  a <= th_TMT1 th <= b /\ a <= th_ti th <= b /\
  exists t, th_TMT1 (snd (calculateHour (map_params Fin p) i' (map_sched Fin sc) (map_weather Fin w) (map_thermal Fin th))) = Fin t /\ t < a.
Proof.
  destruct (initialize_fin light_office light_physical no_ratios) as (i & _ & E).
  exists light_office, 0, 20, (map_hinit Fin i), (idle_sched 0 20), (dark_hour 0), {| th_TMT1 := 20; th_ti := 20 |}.
  split; [exact light_physical|]. split; [exact E|]. split; [apply light_quiet; lra|]. cbn [th_TMT1 th_ti]. split; [lra|]. split; [lra|].
  exists (-20). split; [|lra].
  rewrite (massless_jump light_office (map_hinit Fin i) (idle_sched 0 20) (dark_hour 0) 20 20 light_physical E light_capacity).
  - f_equal.
  - apply (light_quiet 0 0 0 0 0); lra.
  - cbn. lra.
Qed.

