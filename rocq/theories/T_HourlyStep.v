(** C03, C04, C05, C06, C07, C09, C10, C12, C19: one hour of the hourly engine.
    [map_params Fin p] is the building [p] of real numbers fed to the extended-real model. *)
From Coq Require Import Reals Lra ZArith List.
From Verif Require Import Base Num Xr M_Params M_Hourly M_Map E_SmallOffice S_RC S_Physical S_Network S_Year S_HourSpec
  L_Xr L_HourlySpec L_HourlyFin2 L_HourlyThm L_HourlyThm2 L_HourlyThm3 L_HourlyAgain L_Office L_Office2.
Import ListNotations.
Open Scope R_scope.

(** Any hour of any physical building from any state, whatever ratio vectors the model object carries. *)
Theorem C03_step : forall p r0 i' sc w th,
  physical p -> 0 <= sc_vent sc ->
  initialize (map_params Fin p) (map_ratios Fin r0) = Ok i' ->
  needs_ok (fst (calculateHour (map_params Fin p) i' (map_sched Fin sc) (map_weather Fin w) (map_thermal Fin th))).
Proof. exact C03_step_l. Qed.
Print Assumptions C03_step.
Example C03_step_case : physical office /\ 0 <= sc_vent (idle_sched 18 26) /\ exists i', initialize (map_params Fin office) no_ratios = Ok i'.
Proof. split; [exact office_physical|]. split; [apply Rle_refl|exact office_init]. Qed.

(** The new state and the needs satisfy the heat balances of the ISO 13790 network built from the
    parameters ([hour_rc]), with the air at the free-floating temperature clamped into the band. *)
Theorem C04_step : forall p i' sc w th,
  physical p -> 0 <= sc_vent sc -> sc_heatSP sc <= sc_coolSP sc ->
  initialize (map_params Fin p) no_ratios = Ok i' ->
  exists tm1 ta1 qh qc h,
    calculateHour (map_params Fin p) i' (map_sched Fin sc) (map_weather Fin w) (map_thermal Fin th)
      = (h, {| th_TMT1 := Fin tm1; th_ti := Fin ta1 |}) /\
    hr_Qneed_ht h = Fin qh /\ hr_Qneed_cl h = Fin qc /\
    iso_step (hour_rc p (sc_vent sc) (sc_intEquip sc) (sc_intLight sc) (we_wind w) (we_temp w) (we_sol w) (th_ti th))
      (sc_heatSP sc) (sc_coolSP sc) (th_TMT1 th) tm1 ta1 qh qc.
Proof. exact C04_step_l. Qed.
Print Assumptions C04_step.

(** [iso_step] pins the hour down: state and needs are unique. *)
Theorem C04_step_unique : forall x lo hi tm0 tm1 ta1 qh qc tm1' ta1' qh' qc', rc_positive x ->
  iso_step x lo hi tm0 tm1 ta1 qh qc -> iso_step x lo hi tm0 tm1' ta1' qh' qc' ->
  tm1 = tm1' /\ ta1 = ta1' /\ qh = qh' /\ qc = qc'.
Proof. exact iso_step_unique. Qed.
Print Assumptions C04_step_unique.
Example C04_step_case : physical office /\ sc_heatSP (idle_sched 18 26) <= sc_coolSP (idle_sched 18 26).
Proof. split; [exact office_physical|]. cbn. lra. Qed.

Theorem C05_crossed : forall p r0 i' sc w th,
  physical p -> 0 <= sc_vent sc -> sc_coolSP sc < sc_heatSP sc ->
  initialize (map_params Fin p) (map_ratios Fin r0) = Ok i' ->
  exists ta, th_ti (snd (calculateHour (map_params Fin p) i' (map_sched Fin sc) (map_weather Fin w) (map_thermal Fin th))) = Fin ta /\
    sc_coolSP sc <= ta <= sc_heatSP sc.
Proof. exact C05_step_l. Qed.
Print Assumptions C05_crossed.
Example C05_case : physical office /\ 0 <= sc_vent (idle_sched 26 18) /\ sc_coolSP (idle_sched 26 18) < sc_heatSP (idle_sched 26 18).
Proof. split; [exact office_physical|]. cbn. lra. Qed.

(** [physical] contains the coupling condition; [fan_defined] says the two divisors of the fan formula are not 0. *)
Theorem C06_well_posed : forall p r0, physical p -> exists i',
  initialize (map_params Fin p) (map_ratios Fin r0) = Ok i' /\
  forall sc w th, 0 <= sc_vent sc -> fan_defined p (th_ti th) ->
  let (h, th') := calculateHour (map_params Fin p) i' (map_sched Fin sc) (map_weather Fin w) (map_thermal Fin th) in
  hour_finite h /\ finite (th_TMT1 th') /\ finite (th_ti th').
Proof. exact C06_step_l. Qed.
Print Assumptions C06_well_posed.
Example C06_case : physical office /\ fan_defined office 24.
Proof. split; [exact office_physical|]. apply office_fan; lra. Qed.

(** Any list of quiet hours. *)
Theorem C07_bounded : forall p a b i',
  physical p -> mass_slow p -> initialize (map_params Fin p) no_ratios = Ok i' ->
  forall hours th, Forall (fun sw => quiet p a b (fst sw) (snd sw)) hours -> a <= th_TMT1 th <= b -> a <= th_ti th <= b ->
  exists th', fold_left (fun t sw => snd (calculateHour (map_params Fin p) i' (map_sched Fin (fst sw)) (map_weather Fin (snd sw)) t))
      hours (map_thermal Fin th) = map_thermal Fin th' /\
    a <= th_TMT1 th' <= b /\ a <= th_ti th' <= b.
Proof. exact C07_bounded_l. Qed.
Print Assumptions C07_bounded.
Example C07_case : physical office /\ mass_slow office /\
  Forall (fun sw => quiet office 10 30 (fst sw) (snd sw)) [(idle_sched 18 26, dark_hour 12); (idle_sched 15 30, dark_hour 29)].
Proof.
  split; [exact office_physical|]. split; [exact office_slow|].
  apply Forall_cons; [apply office_quiet; lra|]. apply Forall_cons; [apply office_quiet; lra|]. apply Forall_nil.
Qed.
(** Without the stability condition the mass leaves the range in one hour. *)
Theorem C07_unstable_refuted : exists p a b i' sc w th,
  physical p /\ initialize (map_params Fin p) no_ratios = Ok i' /\ quiet p a b sc w /\
  a <= th_TMT1 th <= b /\ a <= th_ti th <= b /\
  exists t, th_TMT1 (snd (calculateHour (map_params Fin p) i' (map_sched Fin sc) (map_weather Fin w) (map_thermal Fin th))) = Fin t /\ t < a.
Proof. exact light_jump. Qed.
Print Assumptions C07_unstable_refuted.

Theorem C09_fan_minimum : forall p r0 i' sc w th,
  physical p -> 0 <= sc_vent sc -> 0 <= ve_fanPower (pa_ventilation p) -> fan_defined p (th_ti th) ->
  initialize (map_params Fin p) (map_ratios Fin r0) = Ok i' ->
  exists f, hr_fan (fst (calculateHour (map_params Fin p) i' (map_sched Fin sc) (map_weather Fin w) (map_thermal Fin th))) = Fin f /\
    0 <= min_fan p (sc_vent sc) <= f /\
    (ht_forcedAir (pa_heating p) = false -> cl_forcedAir (pa_cooling p) = false -> f = min_fan p (sc_vent sc)).
Proof. exact C09_step_l. Qed.
Print Assumptions C09_fan_minimum.
(** More scheduled ventilation at the same needs and air temperature never lowers the fan energy. *)
Theorem C09_fan_monotone : forall p vent vent' ti qh qc,
  0 <= ve_fanPower (pa_ventilation p) -> fan_defined p ti -> vent <= vent' ->
  exists f f', fanEnergy (map_params Fin p) (Fin vent) (Fin ti) (Fin qh) (Fin qc) = Fin f /\
    fanEnergy (map_params Fin p) (Fin vent') (Fin ti) (Fin qh) (Fin qc) = Fin f' /\ f <= f'.
Proof. exact C09_monotone_l. Qed.
Print Assumptions C09_fan_monotone.
Example C09_case : physical office /\ 0 <= ve_fanPower (pa_ventilation office) /\ fan_defined office 25.
Proof. split; [exact office_physical|]. split; [cbn; unfold Rlit; lra|apply office_fan; lra]. Qed.

(** The schedule table, for every number type. *)
Theorem C10_cells : forall (T : Type) (N : Num T) (p : params_t T) hs he ds de,
  ntrunc (po_hoursStart (pa_population p)) = Some hs -> ntrunc (po_hoursEnd (pa_population p)) = Some he ->
  ntrunc (po_daysStart (pa_population p)) = Some ds -> ntrunc (po_daysEnd (pa_population p)) = Some de ->
  exists tbl, populateSchedules p = Ok tbl /\
  forall h d, (0 <= h < 24)%Z -> (0 <= d < 7)%Z -> exists c, sched_at tbl h d = Ok c /\ cell_spec p hs he ds de h d c.
Proof. exact @C10_cells_l. Qed.
Print Assumptions C10_cells.
Example C10_case : ntrunc (po_hoursStart (pa_population office)) = Some 8%Z /\ ntrunc (po_hoursEnd (pa_population office)) = Some 17%Z /\
  ntrunc (po_daysStart (pa_population office)) = Some 1%Z /\ ntrunc (po_daysEnd (pa_population office)) = Some 5%Z.
Proof. exact office_timetable. Qed.

(** More radiation on any surface never increases the lighting power. *)
Theorem C12_monotone : forall p i' sc w w' th th',
  physical p -> daylit p -> 0 <= sc_intLight sc ->
  initialize (map_params Fin p) no_ratios = Ok i' -> (forall k, nth k (we_sol w) 0 <= nth k (we_sol w') 0) ->
  exists v v', hr_illum (fst (calculateHour (map_params Fin p) i' (map_sched Fin sc) (map_weather Fin w) (map_thermal Fin th))) = Fin v /\
    hr_illum (fst (calculateHour (map_params Fin p) i' (map_sched Fin sc) (map_weather Fin w') (map_thermal Fin th'))) = Fin v' /\ v' <= v.
Proof. exact C12_monotone_l. Qed.
Print Assumptions C12_monotone.
Example C12_case : physical office /\ daylit office.
Proof. split; [exact office_physical|exact office_daylit]. Qed.

(** The effective mass area is the documented piecewise linear function: 2.5 up to 165 kJ/K,
    3.0 at 260, 3.5 from 370.  [sp_mass_area] is defined in S_Network. *)
Theorem C19_mass_area : forall c, massArea (Fin c) = Fin (sp_mass_area c).
Proof. exact massArea_fin_spec. Qed.
Print Assumptions C19_mass_area.
Theorem C19_bounds_monotone_continuous :
  (forall c, 2.5 <= sp_mass_area c <= 3.5) /\
  (forall a b, a <= b -> sp_mass_area a <= sp_mass_area b) /\
  (forall a b, Rabs (sp_mass_area b - sp_mass_area a) <= Rabs (b - a) / 190) /\
  sp_mass_area 165 = 2.5 /\ sp_mass_area 260 = 3 /\ sp_mass_area 370 = 3.5.
Proof. exact mass_area_facts. Qed.
Print Assumptions C19_bounds_monotone_continuous.
Example C19_case : massArea (Fin 315) = Fin 3.25 /\ massArea (Fin 200) <> massArea (Fin 300).
Proof. exact mass_area_case. Qed.
