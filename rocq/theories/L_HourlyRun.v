(** A whole year on finite physical data. *)
From Coq Require Import Reals Lra Psatz ZArith List Bool Lia.
From Verif Require Import Base Num Xr M_Params M_TimeFrame M_Hourly M_Map L_Xr L_HourlyR S_Physical L_HourlyFin L_HourlyFin2
  S_RC S_Network L_HourlySpec S_Year S_HourSpec S_Calendar L_Calendar L_HourlyShape.
Import ListNotations.
Open Scope R_scope.

Lemma zn_IZR z : (zn z : xr) = Fin (IZR z).
Proof. rewrite zn_fin. f_equal. num. lra. Qed.

(** The schedule cell of hour [k]. *)
Definition sched_of (p : params_t R) (tt : timetable) (k : Z) : sched R :=
  {| sc_vent := flow_at p tt k; sc_extEquip := bu_externalEquipment (pa_building p); sc_intEquip := equip_at p tt k;
     sc_extLight := 1; sc_intLight := lights_at p tt k; sc_heatSP := heat_at p tt k; sc_coolSP := cool_at p tt k |}.

Lemma sched_eq {T} (a b c d e f g a' b' c' d' e' f' g' : T) :
  a = a' -> b = b' -> c = c' -> d = d' -> e = e' -> f = f' -> g = g' -> mkSched a b c d e f g = mkSched a' b' c' d' e' f' g'.
Proof. intros; subst; reflexivity. Qed.
Lemma sched_cell_of p tt k :
  sched_cell (map_params Fin p) (tt_firstDay tt) (tt_lastDay tt) (tt_firstHour tt) (tt_lastHour tt) (k mod 24) ((k / 24) mod 7)
  = map_sched Fin (sched_of p tt k).
Proof.
  unfold sched_cell, sched_of, map_sched, flow_at, equip_at, lights_at, heat_at, cool_at, occupied, open_hour.
  destruct ((tt_firstHour tt <=? k mod 24) && (k mod 24 <=? tt_lastHour tt))%Z;
  destruct ((tt_firstDay tt <=? (k / 24) mod 7) && ((k / 24) mod 7 <=? tt_lastDay tt))%Z; cbn [andb];
  apply sched_eq; rewrite ?zn_IZR; reflexivity.
Qed.

Section Step.
Variable p : params_t R.
Hypothesis HP : physical p.
Variable i : hinit R.
Hypothesis HI : init_ok i.
Variable sc : sched R.
Hypothesis HV : 0 <= sc_vent sc.
Variables (w : weather R) (th : thermal R).
Let n := hourNet p i sc w th.
Let phii := phiAir p i sc w.
Definition plant : R := plantPower (hourNet p i sc w th) (th_TMT1 th) (phiAir p i sc w) (sc_heatSP sc) (sc_coolSP sc).
Definition nextState : thermal R :=
  {| th_TMT1 := massTemp (hourNet p i sc w th) (th_TMT1 th) (plant + phiAir p i sc w);
     th_ti := airTemp (hourNet p i sc w th) (th_TMT1 th) (plant + phiAir p i sc w) |}.
Let out := calculateHour (map_params Fin p) (map_hinit Fin i) (map_sched Fin sc) (map_weather Fin w) (map_thermal Fin th).

Lemma step_wf : net_wf n.
Proof. apply hourNet_wf; auto; [exact (phy_area p HP)|exact (phy_dCp p HP)]. Qed.
Lemma step_plant : plantPower (hourNet (map_params Fin p) (map_hinit Fin i) (map_sched Fin sc) (map_weather Fin w) (map_thermal Fin th))
    (th_TMT1 (map_thermal Fin th)) (phiAir (map_params Fin p) (map_hinit Fin i) (map_sched Fin sc) (map_weather Fin w))
    (sc_heatSP (map_sched Fin sc)) (sc_coolSP (map_sched Fin sc)) = Fin plant.
Proof.
  pose proof step_wf as WF.
  rewrite (hourNet_fin p i HI (phy_area p HP) (phy_dCp p HP) sc w th HV), (phiAir_fin p i HI sc w).
  exact (plantPower_fin n WF (th_TMT1 th) phii (sc_heatSP sc) (sc_coolSP sc)).
Qed.
Lemma step_state : snd out = map_thermal Fin nextState.
Proof.
  pose proof step_wf as WF. unfold out, calculateHour. cbn [snd]. rewrite step_plant.
  rewrite (hourNet_fin p i HI (phy_area p HP) (phy_dCp p HP) sc w th HV), (phiAir_fin p i HI sc w).
  rewrite add_fin. cbn [map_thermal th_TMT1].
  rewrite (massTemp_fin n WF), (airTemp_fin n WF). reflexivity.
Qed.
Lemma step_ht : hr_Qneed_ht (fst out) = Fin (Rmax 0 plant).
Proof.
  unfold out, calculateHour. cbn [fst hr_Qneed_ht]. rewrite step_plant, zn_fin, max_fin, nmax_R. f_equal. f_equal. num. lra.
Qed.
Lemma step_cl : hr_Qneed_cl (fst out) = Fin (Rmax 0 (- plant)).
Proof.
  unfold out, calculateHour. cbn [fst hr_Qneed_cl]. rewrite step_plant, zn_fin, opp_fin, max_fin, nmax_R. f_equal. f_equal. num. lra.
Qed.
Lemma step_illum : hr_illum (fst out) = Fin (electricForTotalLightArea (pa_structure p) i (we_sol w) * sc_intLight sc).
Proof.
  unfold out, calculateHour. cbn [fst hr_illum]. change (we_sol (map_weather Fin w)) with (map Fin (we_sol w)).
  rewrite (efla_fin p i HI). reflexivity.
Qed.
Lemma step_extLight : hr_illum_ext (fst out) =
  Fin (if Rlt_dec 0 (nth 8 (we_sol w) 0) then 0 else li_exteriorEnergy (pa_lighting p) * sc_extLight sc / st_floorArea (pa_structure p)).
Proof.
  unfold out, calculateHour, exteriorLighting. cbn [fst hr_illum_ext]. change (we_sol (map_weather Fin w)) with (map Fin (we_sol w)).
  rewrite at9_fin, zn_fin, lt_fin. unfold at9. cbv [zn]. cbn [lit nlt R_num]. cbv [Rlit]. replace (0/1) with 0 by lra.
  pose proof (phy_area p HP) as PA.
  destruct (Rltb_spec 0 (nth 8 (we_sol w) 0)); destruct (Rlt_dec 0 (nth 8 (we_sol w) 0)); try lra; [reflexivity|].
  cbn [map_params map_structure map_lighting pa_lighting pa_structure li_exteriorEnergy st_floorArea map_sched sc_extLight].
  rewrite mul_fin, div_fin by lra. reflexivity.
Qed.
Lemma step_pump : hr_pump (fst out) =
  Fin (if Rlt_dec plant 0 then cl_E_pumps (pa_cooling p) * cl_pumpControlReduction (pa_cooling p)
       else if Rlt_dec 0 plant then ht_E_pumps (pa_heating p) * ht_pumpControlReduction (pa_heating p) else 0).
Proof.
  change (hr_pump (fst out)) with (pumpEnergy (map_params Fin p) (hr_Qneed_ht (fst out)) (hr_Qneed_cl (fst out))).
  rewrite step_ht, step_cl. unfold pumpEnergy. rewrite zn_fin, !lt_fin. cbv [zn]. cbn [lit nlt R_num]. cbv [Rlit]. replace (0/1) with 0 by lra.
  destruct (Rlt_dec plant 0) as [L|L].
  - rewrite Rltb_true by (rewrite Rmax_right; lra). reflexivity.
  - rewrite (Rltb_false 0 (Rmax 0 (- plant))) by (rewrite Rmax_left; lra).
    destruct (Rlt_dec 0 plant) as [M|M].
    + rewrite Rltb_true by (rewrite Rmax_right; lra). reflexivity.
    + rewrite Rltb_false by (rewrite Rmax_left; lra). reflexivity.
Qed.
Lemma step_plug : hr_plug (fst out) = Fin (sc_intEquip sc).
Proof. reflexivity. Qed.
Lemma step_extEquip : hr_extEquip (fst out) = Fin (sc_extEquip sc / st_floorArea (pa_structure p)).
Proof.
  unfold out, calculateHour. cbn [fst hr_extEquip]. pose proof (phy_area p HP) as PA.
  cbn [map_params map_structure pa_structure st_floorArea map_sched sc_extEquip]. rewrite div_fin by lra. reflexivity.
Qed.
Lemma step_dhw : hr_dhw (fst out) = Fin 0.
Proof. unfold out, calculateHour. cbn [fst hr_dhw]. rewrite zn_fin. f_equal. num. lra. Qed.
Definition fan_flow (ti q : R) : R :=
  (if ht_forcedAir (pa_heating p) then Rmax 0 q / fan_den_ht p ti else 0)
  + (if cl_forcedAir (pa_cooling p) then Rmax 0 (- q) / fan_den_cl p ti else 0).
Lemma step_fan : fan_den_ht p (th_ti th) <> 0 -> fan_den_cl p (th_ti th) <> 0 ->
  hr_fan (fst out) = Fin (Rmax (fan_flow (th_ti th) plant) (sp_vent p (sc_vent sc)) * ve_fanPower (pa_ventilation p) * 1000 / 3600).
Proof.
  intros D1 D2.
  change (hr_fan (fst out)) with (fanEnergy (map_params Fin p) (ventFlow (map_params Fin p) (map_sched Fin sc))
    (Fin (th_ti th)) (hr_Qneed_ht (fst out)) (hr_Qneed_cl (fst out))).
  rewrite step_ht, step_cl, (vent_fin p (phy_area p HP) sc).
  unfold fanEnergy.
  cbn [map_params map_heating map_cooling map_phys map_ventilation pa_heating pa_cooling pa_phys pa_ventilation ht_tempOcc ht_dT_supp
    cl_tempOcc cl_dT_supp ph_rhoCpAir ht_forcedAir cl_forcedAir ve_fanPower].
  rewrite dblmin_fin. fin.
  rewrite !(div_fin (Rmax 0 _)) by (first [exact D1 | exact D2]).
  rewrite !if_fin. fin. rewrite div_fin by (num; lra). f_equal. rewrite nmax_R, vent_spec.
  unfold fan_flow. num. replace (0/1) with 0 by lra. replace (1000/1) with 1000 by lra. replace (3600/1) with 3600 by lra. reflexivity.
Qed.
End Step.

(** The year as a chain of hours on real states. *)
Inductive year_trace (p : params_t R) (tt : timetable) (i : hinit R) : Z -> list (weather R) -> thermal R -> list (hourres xr) -> Prop :=
| yt_end k ws th : year_trace p tt i k ws th []
| yt_hour k w ws th r rs :
    (length (we_sol w) >= 9)%nat ->
    r = fst (calculateHour (map_params Fin p) (map_hinit Fin i) (map_sched Fin (sched_of p tt k)) (map_weather Fin w) (map_thermal Fin th)) ->
    year_trace p tt i (k + 1) ws (nextState p i (sched_of p tt k) w th) rs ->
    year_trace p tt i k (w :: ws) th (r :: rs).

Lemma flow_nonneg p tt k : physical p -> 0 <= flow_at p tt k.
Proof. intros HP. unfold flow_at. pose proof (phy_supply p HP). destruct (open_hour tt k); lra. Qed.

Lemma loop_trace p tt i frame : physical p -> init_ok i -> forall k ws th raw,
  (forall j oc, nth_error frame j = Some oc -> exists c, oc = Some c /\
     tc_hour c = ((k + Z.of_nat j) mod 24)%Z /\ tc_dow c = (((k + Z.of_nat j) / 24) mod 7)%Z) ->
  yearLoop (map_params Fin p) (map_hinit Fin i)
    (map (fun h => map (fun d => sched_cell (map_params Fin p) (tt_firstDay tt) (tt_lastDay tt) (tt_firstHour tt) (tt_lastHour tt) h d) (zrange 0 7)) (zrange 0 24))
    frame (map (map_weather Fin) ws) (map_thermal Fin th) = Ok raw ->
  year_trace p tt i k ws th raw.
Proof.
  intros HP HI. induction frame as [|oc frame IH]; intros k ws th raw HF H; cbn [yearLoop] in H.
  - injection H as <-. constructor.
  - destruct (HF 0%nat oc eq_refl) as (c & -> & Hh & Hd). rewrite Z.add_0_r in Hh, Hd.
    destruct ws as [|w ws]; [discriminate H|]. cbn [map] in H.
    destruct (negb (nine (we_sol (map_weather Fin w)))) eqn:E9; [discriminate H|].
    rewrite sched_at_ok in H by (rewrite ?Hh, ?Hd; apply Z.mod_pos_bound; lia).
    rewrite Hh, Hd in H. cbn [obind] in H. rewrite (sched_cell_of p tt k) in H.
    destruct (calculateHour _ _ _ _ _) as [r th'] eqn:EC.
    apply obind_ok in H as (rs & Hrs & H). injection H as <-.
    constructor.
    + unfold nine in E9. cbn [map_weather we_sol] in E9. rewrite map_length in E9. apply negb_false_iff, Nat.leb_le in E9. lia.
    + rewrite EC. reflexivity.
    + apply IH.
      * intros j oc Hj. destruct (HF (S j) oc Hj) as (c' & E & E1 & E2). exists c'.
        replace (k + 1 + Z.of_nat j)%Z with (k + Z.of_nat (S j))%Z by (rewrite Nat2Z.inj_succ; ring). auto.
      * replace (map_thermal Fin (nextState p i (sched_of p tt k) w th)) with th'; [exact Hrs|].
        pose proof (step_state p HP i HI (sched_of p tt k) (flow_nonneg p tt k HP) w th) as ES. rewrite EC in ES. exact ES.
Qed.

Lemma run_trace p tt ws r0 raw r : physical p -> timetable_of p tt ->
  simulateRaw (map_params Fin p) (map (map_weather Fin) ws) (map_ratios Fin r0) = Ok (raw, r) ->
  exists i, initialize p r0 = Ok i /\ init_ok i /\ year_trace p tt i 0 ws {| th_TMT1 := 20; th_ti := 20 |} raw.
Proof.
  intros HP (T1 & T2 & T3 & T4) H. unfold simulateRaw in H.
  apply obind_ok in H as (tbl & Htbl & H). apply obind_ok in H as (ii & Hii & H).
  apply obind_ok in H as (frame & Hfr & H). apply obind_ok in H as (raw' & Hraw & H).
  apply ok_inj in H. apply pair_equal_spec in H as [<- <-].
  destruct (initialize_fin p HP r0) as (i & Hi & Hi'). rewrite Hi' in Hii. apply ok_inj in Hii. subst ii.
  pose proof (initialize_ok p r0 i HP Hi) as HI. exists i. split; [exact Hi|]. split; [exact HI|].
  assert (Etbl : tbl = map (fun h => map (fun d => sched_cell (map_params Fin p) (tt_firstDay tt) (tt_lastDay tt) (tt_firstHour tt) (tt_lastHour tt) h d) (zrange 0 7)) (zrange 0 24)).
  { unfold populateSchedules, cast_int in Htbl.
    change (ntrunc (po_daysStart (pa_population (map_params Fin p)))) with (Rtoint (po_daysStart (pa_population p))) in Htbl.
    change (ntrunc (po_daysEnd (pa_population (map_params Fin p)))) with (Rtoint (po_daysEnd (pa_population p))) in Htbl.
    change (ntrunc (po_hoursStart (pa_population (map_params Fin p)))) with (Rtoint (po_hoursStart (pa_population p))) in Htbl.
    change (ntrunc (po_hoursEnd (pa_population (map_params Fin p)))) with (Rtoint (po_hoursEnd (pa_population p))) in Htbl.
    rewrite T1, T2, T3, T4 in Htbl. cbn [obind] in Htbl. apply ok_inj in Htbl. symmetry. exact Htbl. }
  subst tbl.
  assert (E0 : (thermal0 : thermal xr) = map_thermal Fin {| th_TMT1 := 20; th_ti := 20 |}).
  { unfold thermal0, map_thermal. cbn [th_TMT1 th_ti]. replace (zn 20 : xr) with (Fin 20); [reflexivity|]. rewrite zn_fin. f_equal. num. lra. }
  rewrite E0 in Hraw.
  refine (loop_trace p tt i frame HP HI 0 ws _ raw' _ Hraw).
  intros j oc Hj. destruct timeFrame_spec as (b & E & HL & HC). rewrite E in Hfr. apply ok_inj in Hfr. subst frame.
  assert (Hlt : (j < length b)%nat) by (apply nth_error_Some; rewrite Hj; discriminate).
  destruct (HC (Z.of_nat j)) as (c & Hc & E1 & _ & E3 & _); [lia|].
  rewrite Nat2Z.id in Hc. rewrite Hc in Hj. injection Hj as <-. exists c. rewrite Z.add_0_l. auto.
Qed.
