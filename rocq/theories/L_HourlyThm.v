(** Lemmas behind T_HourlyStep and T_HourlyYear. *)
From Coq Require Import Reals Lra Psatz ZArith List Bool Lia.
From Verif Require Import Base Num Xr M_Params M_TimeFrame M_Hourly M_Map L_Xr L_HourlyR S_Physical L_HourlyFin L_HourlyFin2
  S_RC S_Network L_HourlySpec S_Year S_HourSpec L_HourlyShape L_HourlyRun.
Import ListNotations.
Open Scope R_scope.

Lemma run_timetable p ws r0 res :
  simulateRaw (map_params Fin p) (map (map_weather Fin) ws) r0 = Ok res -> exists tt, timetable_of p tt.
Proof.
  unfold simulateRaw. intros H. apply obind_ok in H as (tbl & H & _).
  unfold populateSchedules, cast_int in H.
  change (ntrunc (po_daysStart (pa_population (map_params Fin p)))) with (Rtoint (po_daysStart (pa_population p))) in H.
  change (ntrunc (po_daysEnd (pa_population (map_params Fin p)))) with (Rtoint (po_daysEnd (pa_population p))) in H.
  change (ntrunc (po_hoursStart (pa_population (map_params Fin p)))) with (Rtoint (po_hoursStart (pa_population p))) in H.
  change (ntrunc (po_hoursEnd (pa_population (map_params Fin p)))) with (Rtoint (po_hoursEnd (pa_population p))) in H.
  unfold timetable_of.
  destruct (Rtoint (po_daysStart _)) as [ds|]; [|discriminate H]. destruct (Rtoint (po_daysEnd _)) as [de|]; [|discriminate H].
  destruct (Rtoint (po_hoursStart _)) as [hs|]; [|discriminate H]. destruct (Rtoint (po_hoursEnd _)) as [he|]; [|discriminate H].
  exists {| tt_firstHour := hs; tt_lastHour := he; tt_firstDay := ds; tt_lastDay := de |}. auto.
Qed.

Lemma split_needs q : 0 <= Rmax 0 q /\ 0 <= Rmax 0 (- q) /\ (Rmax 0 q = 0 \/ Rmax 0 (- q) = 0) /\ Rmax 0 q - Rmax 0 (- q) = q.
Proof. unfold Rmax. repeat destruct (Rle_dec _ _); lra. Qed.
Lemma step_needs p i sc w th : physical p -> init_ok i -> 0 <= sc_vent sc ->
  needs_ok (fst (calculateHour (map_params Fin p) (map_hinit Fin i) (map_sched Fin sc) (map_weather Fin w) (map_thermal Fin th))).
Proof.
  intros HP HI HV. destruct (split_needs (plant p i sc w th)) as (A & B & C & _).
  exists (Rmax 0 (plant p i sc w th)), (Rmax 0 (- plant p i sc w th)).
  repeat split; auto; [apply step_ht | apply step_cl]; auto.
Qed.
(** A fresh or reused model, initialised on finite physical data. *)
Lemma init_cases p r0 i' : physical p -> initialize (map_params Fin p) (map_ratios Fin r0) = Ok i' ->
  exists i, initialize p r0 = Ok i /\ i' = map_hinit Fin i /\ init_ok i.
Proof.
  intros HP H. destruct (initialize_fin p HP r0) as (i & Hi & Hi'). rewrite Hi' in H. apply ok_inj in H. subst i'.
  exists i. repeat split; auto; try exact Hi; destruct (initialize_ok p r0 i HP Hi); assumption.
Qed.
Lemma C03_step_l p r0 i' sc w th : physical p -> 0 <= sc_vent sc ->
  initialize (map_params Fin p) (map_ratios Fin r0) = Ok i' ->
  needs_ok (fst (calculateHour (map_params Fin p) i' (map_sched Fin sc) (map_weather Fin w) (map_thermal Fin th))).
Proof. intros HP HV H. destruct (init_cases p r0 i' HP H) as (i & _ & -> & HI). apply step_needs; auto. Qed.

Lemma trace_nth p tt i : forall k0 ws th raw, year_trace p tt i k0 ws th raw ->
  forall k h, nth_error raw k = Some h -> exists w thk, nth_error ws k = Some w /\ (length (we_sol w) >= 9)%nat /\
  h = fst (calculateHour (map_params Fin p) (map_hinit Fin i) (map_sched Fin (sched_of p tt (k0 + Z.of_nat k))) (map_weather Fin w) (map_thermal Fin thk)).
Proof.
  intros k0 ws th raw H. induction H as [k0 ws th|k0 w ws th r rs HL E HT IH]; intros k h Hk.
  - destruct k; discriminate Hk.
  - destruct k as [|k].
    + injection Hk as <-. exists w, th. rewrite Z.add_0_r. auto.
    + destruct (IH k h Hk) as (w' & thk & A & B & C). exists w', thk.
      replace (k0 + Z.of_nat (S k))%Z with (k0 + 1 + Z.of_nat k)%Z by (rewrite Nat2Z.inj_succ; ring). auto.
Qed.

Lemma C03_run_l p ws r0 raw r : physical p ->
  simulateRaw (map_params Fin p) (map (map_weather Fin) ws) (map_ratios Fin r0) = Ok (raw, r) ->
  Forall needs_ok raw.
Proof.
  intros HP H. destruct (run_timetable _ _ _ _ H) as (tt & HT).
  destruct (run_trace p tt ws r0 raw r HP HT H) as (i & _ & HI & TR).
  apply Forall_forall. intros h Hh. apply In_nth_error in Hh as (k & Hk).
  destruct (trace_nth _ _ _ _ _ _ _ TR k h Hk) as (w & thk & _ & _ & ->).
  apply step_needs; auto. apply flow_nonneg, HP.
Qed.

(** ** Thermostat *)
Lemma net_positive n phii : net_wf n -> rc_positive (to_rc n phii).
Proof. intros H. destruct H. unfold rc_positive, to_rc; cbn. repeat split; assumption. Qed.

Lemma step_iso p i sc w th : physical p -> init_ok i -> 0 <= sc_vent sc -> sc_heatSP sc <= sc_coolSP sc ->
  let q := plant p i sc w th in
  iso_step (to_rc (hourNet p i sc w th) (phiAir p i sc w)) (sc_heatSP sc) (sc_coolSP sc)
    (th_TMT1 th) (th_TMT1 (nextState p i sc w th)) (th_ti (nextState p i sc w th)) (Rmax 0 q) (Rmax 0 (- q)).
Proof.
  intros HP HI HV HS q. pose proof (step_wf p HP i HI sc HV w th) as WF.
  set (n := hourNet p i sc w th) in *. set (phii := phiAir p i sc w) in *.
  destruct (thermostat_R n (th_TMT1 th) phii (sc_heatSP sc) (sc_coolSP sc) WF HS) as (E & _).
  destruct (split_needs q) as (A & B & C & D).
  pose proof (solution_balance n (th_TMT1 th) phii 0 WF) as B0.
  pose proof (solution_balance n (th_TMT1 th) phii q WF) as B1.
  unfold iso_step. split; [|split]; [| |auto].
  - exists (airTemp n (th_TMT1 th) phii). split; [|exact E].
    rewrite Rplus_0_l in B0 || rewrite Rplus_0_r in B0. do 2 eexists. exact B0.
  - rewrite D. eexists. exact B1.
Qed.

Lemma ordered_at p tt k : ordered_setpoints p -> heat_at p tt k <= cool_at p tt k.
Proof. intros [A B]. unfold heat_at, cool_at. destruct (occupied tt k); assumption. Qed.

Lemma C04_step_l p i' sc w th : physical p -> 0 <= sc_vent sc -> sc_heatSP sc <= sc_coolSP sc ->
  initialize (map_params Fin p) no_ratios = Ok i' ->
  exists tm1 ta1 qh qc h,
    calculateHour (map_params Fin p) i' (map_sched Fin sc) (map_weather Fin w) (map_thermal Fin th)
      = (h, {| th_TMT1 := Fin tm1; th_ti := Fin ta1 |}) /\
    hr_Qneed_ht h = Fin qh /\ hr_Qneed_cl h = Fin qc /\
    iso_step (hour_rc p (sc_vent sc) (sc_intEquip sc) (sc_intLight sc) (we_wind w) (we_temp w) (we_sol w) (th_ti th))
      (sc_heatSP sc) (sc_coolSP sc) (th_TMT1 th) tm1 ta1 qh qc.
Proof.
  intros HP HV HS H. destruct (init_cases p no_ratios i' HP H) as (i & Ei & -> & HI).
  pose proof (step_iso p i sc w th HP HI HV HS) as IS. cbv zeta in IS. rewrite (hour_rc_spec p HP i Ei) in IS.
  pose proof (step_state p HP i HI sc HV w th) as ES.
  pose proof (step_ht p HP i HI sc HV w th) as E1. pose proof (step_cl p HP i HI sc HV w th) as E2.
  destruct (calculateHour (map_params Fin p) (map_hinit Fin i) (map_sched Fin sc) (map_weather Fin w) (map_thermal Fin th)) as [h th'].
  cbn [fst snd] in *. subst th'. do 5 eexists. split; [reflexivity|]. split; [exact E1|]. split; [exact E2|]. exact IS.
Qed.

Lemma trace_iso p tt i : physical p -> ordered_setpoints p -> initialize p no_ratios = Ok i ->
  forall k ws th raw, year_trace p tt i k ws th raw ->
  exists needs, iso_hours p tt k (th_TMT1 th) (th_ti th) ws needs /\
    map (fun h => (hr_Qneed_ht h, hr_Qneed_cl h)) raw = map (fun q => (Fin (fst q), Fin (snd q))) needs.
Proof.
  intros HP HO Ei. pose proof (initialize_ok p _ i HP Ei) as HI.
  intros k ws th raw H. induction H as [k ws th|k w ws th r rs HL E HT IH].
  - exists []. split; [constructor|reflexivity].
  - destruct IH as (needs & HN & EN). pose proof (flow_nonneg p tt k HP) as HV.
    pose proof (step_iso p i (sched_of p tt k) w th HP HI HV (ordered_at p tt k HO)) as IS. cbv zeta in IS.
    rewrite (hour_rc_spec p HP i Ei) in IS.
    exists ((Rmax 0 (plant p i (sched_of p tt k) w th), Rmax 0 (- plant p i (sched_of p tt k) w th)) :: needs).
    split.
    + econstructor; [exact IS|exact HN].
    + cbn [map fst snd]. rewrite EN. f_equal. rewrite E.
      rewrite (step_ht p HP i HI (sched_of p tt k) HV w th), (step_cl p HP i HI (sched_of p tt k) HV w th). reflexivity.
Qed.

Lemma C04_year_l p tt ws raw r : physical p -> ordered_setpoints p -> timetable_of p tt ->
  simulateRaw (map_params Fin p) (map (map_weather Fin) ws) no_ratios = Ok (raw, r) ->
  exists needs, iso_hours p tt 0 20 20 ws needs /\
    map (fun h => (hr_Qneed_ht h, hr_Qneed_cl h)) raw = map (fun q => (Fin (fst q), Fin (snd q))) needs.
Proof.
  intros HP HO HT H. destruct (run_trace p tt ws no_ratios raw r HP HT H) as (i & Ei & HI & TR).
  exact (trace_iso p tt i HP HO Ei _ _ _ _ TR).
Qed.

(** Given the air temperature, plant power and new mass temperature are determined. *)
Lemma balance_given_air x q1 q2 tm0 a1 a2 s1 s2 ta : rc_positive x ->
  rc_balance x q1 tm0 a1 s1 ta -> rc_balance x q2 tm0 a2 s2 ta -> q1 = q2 /\ a1 = a2 /\ s1 = s2.
Proof.
  intros (Hv & Hi & Hw & Hm & He & HC) (A1 & A2 & A3) (B1 & B2 & B3).
  assert (C : 0 <= rc_C x / 3.6) by (apply Rmult_le_pos; lra).
  set (c := rc_C x / 3.6) in *.
  assert (E : (rc_is x + rc_w x + rc_ms x) * (s1 - s2) = rc_ms x * ((a1 - a2) / 2)) by lra.
  assert (D : c * (a1 - a2) = rc_ms x * (s1 - s2) - (rc_ms x + rc_em x) * ((a1 - a2) / 2)) by lra.
  assert (Z : a1 - a2 = 0).
  { set (d := a1 - a2) in *. set (e := s1 - s2) in *.
    assert (K : d * (c + (rc_ms x + rc_em x) / 2) = rc_ms x * e) by lra.
    assert (K2 : d * ((c + (rc_ms x + rc_em x) / 2) * (rc_is x + rc_w x + rc_ms x) - rc_ms x * rc_ms x / 2) = 0).
    { replace (d * ((c + (rc_ms x + rc_em x) / 2) * (rc_is x + rc_w x + rc_ms x) - rc_ms x * rc_ms x / 2))
        with ((d * (c + (rc_ms x + rc_em x) / 2)) * (rc_is x + rc_w x + rc_ms x) - rc_ms x * (rc_ms x * (d / 2))) by field.
      rewrite K, <- E. ring. }
    apply Rmult_integral in K2 as [K2|K2]; [exact K2|]. exfalso.
    assert (0 < rc_ms x * (rc_is x + rc_w x)) by (apply Rmult_lt_0_compat; lra).
    assert (0 < rc_em x * (rc_is x + rc_w x + rc_ms x)) by (apply Rmult_lt_0_compat; lra).
    assert (0 <= c * (rc_is x + rc_w x + rc_ms x)) by (apply Rmult_le_pos; lra). nra. }
  assert (ZS : s1 - s2 = 0).
  { rewrite Z in E. replace (rc_ms x * (0 / 2)) with 0 in E by field. apply Rmult_integral in E as [E|E]; lra. }
  repeat split; [|lra|lra]. assert (s1 = s2) by lra. subst s2. lra.
Qed.

Lemma iso_step_unique x lo hi tm0 a1 t1 h1 c1 a2 t2 h2 c2 : rc_positive x ->
  iso_step x lo hi tm0 a1 t1 h1 c1 -> iso_step x lo hi tm0 a2 t2 h2 c2 -> a1 = a2 /\ t1 = t2 /\ h1 = h2 /\ c1 = c2.
Proof.
  intros HX ((f1 & (m1 & s1 & F1) & T1) & (u1 & B1) & P1 & P2 & P3) ((f2 & (m2 & s2 & F2) & T2) & (u2 & B2) & Q1 & Q2 & Q3).
  destruct (balance_unique x 0 tm0 m1 s1 f1 m2 s2 f2 HX F1 F2) as (_ & _ & EF). subst f2.
  assert (ET : t1 = t2) by congruence. subst t2 t1.
  destruct (balance_given_air x _ _ tm0 a1 a2 u1 u2 _ HX B1 B2) as (E1 & E2 & _). repeat split; auto; lra.
Qed.

Lemma rc_at_positive p tt k w ta : physical p -> rc_positive (rc_at p tt k w ta).
Proof.
  intros HP. destruct (initialize_fin p HP no_ratios) as (i & Ei & _).
  pose proof (initialize_ok p _ i HP Ei) as HI.
  unfold rc_at. pose proof (hour_rc_spec p HP i Ei (sched_of p tt k) w {| th_TMT1 := 0; th_ti := ta |}) as E.
  cbn [sched_of sc_vent sc_intEquip sc_intLight th_ti] in E. rewrite <- E.
  apply net_positive. apply step_wf; auto. apply flow_nonneg, HP.
Qed.

Lemma iso_hours_unique p tt : physical p -> forall k tm ta ws n1, iso_hours p tt k tm ta ws n1 ->
  forall n2, iso_hours p tt k tm ta ws n2 -> length n1 = length n2 -> n1 = n2.
Proof.
  intros HP k tm ta ws n1 H. induction H as [k tm ta ws|k tm ta w ws tm' ta' qh qc needs HS HN IH]; intros n2 H2 HL.
  - destruct n2; [reflexivity|discriminate HL].
  - inversion H2; subst; [discriminate HL|].
    match goal with HS2 : iso_step _ _ _ _ _ _ _ _ |- _ =>
      destruct (iso_step_unique _ _ _ _ _ _ _ _ _ _ _ _ (rc_at_positive p tt k w ta HP) HS HS2) as (-> & -> & -> & ->) end.
    f_equal. apply IH; [assumption|]. cbn in HL. lia.
Qed.

(** ** Crossed set-points *)
Lemma C05_step_l p r0 i' sc w th : physical p -> 0 <= sc_vent sc -> sc_coolSP sc < sc_heatSP sc ->
  initialize (map_params Fin p) (map_ratios Fin r0) = Ok i' ->
  exists ta, th_ti (snd (calculateHour (map_params Fin p) i' (map_sched Fin sc) (map_weather Fin w) (map_thermal Fin th))) = Fin ta /\
    sc_coolSP sc <= ta <= sc_heatSP sc.
Proof.
  intros HP HV HS H. destruct (init_cases p r0 i' HP H) as (i & Ei & -> & HI).
  rewrite (step_state p HP i HI sc HV w th). eexists. split; [reflexivity|].
  pose proof (step_wf p HP i HI sc HV w th) as WF. cbn [nextState th_ti]. unfold plant.
  destruct (crossed_R _ (th_TMT1 th) (phiAir p i sc w) _ _ WF HS) as (A & B & C).
  destruct (Rle_lt_dec (airTemp (hourNet p i sc w th) (th_TMT1 th) (phiAir p i sc w)) (sc_coolSP sc)) as [L|L].
  - rewrite (A L). lra.
  - destruct (Rle_lt_dec (sc_heatSP sc) (airTemp (hourNet p i sc w th) (th_TMT1 th) (phiAir p i sc w))) as [M|M].
    + rewrite (B M). lra.
    + rewrite C by lra. lra.
Qed.

(** ** Everything an hour produces is finite *)
Lemma fin_finite x r : x = Fin r -> finite x.
Proof. intros ->. exists r. reflexivity. Qed.
Lemma step_finite p i sc w th : physical p -> init_ok i -> 0 <= sc_vent sc -> fan_defined p (th_ti th) ->
  hour_finite (fst (calculateHour (map_params Fin p) (map_hinit Fin i) (map_sched Fin sc) (map_weather Fin w) (map_thermal Fin th))).
Proof.
  intros HP HI HV [F1 F2]. unfold hour_finite.
  rewrite (step_ht p HP i HI sc HV w th), (step_cl p HP i HI sc HV w th), (step_illum p i HI sc w th), (step_extLight p HP i sc w th),
    (step_pump p HP i HI sc HV w th), (step_extEquip p HP i sc w th), (step_dhw p i sc w th), (step_fan p HP i HI sc HV w th F1 F2),
    (step_plug p i sc w th). repeat split; eapply fin_finite; reflexivity.
Qed.
Lemma C06_step_l p r0 : physical p -> exists i',
  initialize (map_params Fin p) (map_ratios Fin r0) = Ok i' /\
  forall sc w th, 0 <= sc_vent sc -> fan_defined p (th_ti th) ->
  let (h, th') := calculateHour (map_params Fin p) i' (map_sched Fin sc) (map_weather Fin w) (map_thermal Fin th) in
  hour_finite h /\ finite (th_TMT1 th') /\ finite (th_ti th').
Proof.
  intros HP. destruct (initialize_fin p HP r0) as (i & Ei & Ei'). exists (map_hinit Fin i). split; [exact Ei'|].
  intros sc w th HV HF. pose proof (initialize_ok p r0 i HP Ei) as HI.
  pose proof (step_finite p i sc w th HP HI HV HF) as A. pose proof (step_state p HP i HI sc HV w th) as B.
  destruct (calculateHour _ _ _ _ _) as [h th']. cbn [fst snd] in *. subst th'. repeat split; try apply A; eapply fin_finite; reflexivity.
Qed.
