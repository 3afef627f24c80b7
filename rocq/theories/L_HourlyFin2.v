(** One hour on finite physical data: the extended-real step is the real step. *)
From Coq Require Import Reals Lra Psatz ZArith List Bool.
From Verif Require Import Base Num Xr M_Params M_Hourly M_Map L_Xr L_HourlyR S_Physical L_HourlyFin.
Import ListNotations.
Open Scope R_scope.
Ltac num := cbv [zn]; cbn [lit nadd nsub nmul ndiv nopp nabs nlt neqb npow R_num]; rewrite ?nmax_R, ?nmin_R; cbv [Rlit].

Lemma ok_inj {A} (a b : A) : Ok a = Ok b -> a = b.
Proof. congruence. Qed.

Ltac fin := repeat progress rewrite ?zn_fin, ?lit_fin, ?add_fin, ?sub_fin, ?mul_fin, ?opp_fin, ?abs_fin, ?max_fin, ?min_fin.

(** What one hour needs to know about the initialised coefficients. *)
Record init_ok (i : hinit R) : Prop := {
  io_areaNat : 0 < hi_areaNatRatio i;
  io_lux : 0 < hi_elightNatural i;
  io_q4 : 0 < hi_q4Pa i;
  io_is : 0 < hi_H_tris i;
  io_win : 0 <= hi_hwin i;
  io_ms : 0 < hi_H_ms i;
  io_em : 0 < hi_hem i;
  io_C : 0 <= hi_Cm i;
  io_hz : 0 < hi_windImpactHz i;
  io_sr : 0 < hi_windImpactSupplyRatio i }.

Lemma initialize_ok p r i : physical p -> initialize p r = Ok i -> init_ok i.
Proof.
  intros HP H. unfold initialize in H. rewrite (structure_nine_phys p HP) in H. cbn [negb] in H.
  apply ok_inj in H. rewrite <- H.
  constructor; cbn [hi_areaNatRatio hi_elightNatural hi_q4Pa hi_H_tris hi_hwin hi_H_ms hi_hem hi_Cm hi_windImpactHz hi_windImpactSupplyRatio].
  - exact (areaNatRatio_pos p HP).
  - exact (lux_pos p HP).
  - exact (q4Pa_pos p).
  - exact (H_tris_pos p HP).
  - exact (hwin_nonneg p HP).
  - exact (H_ms_pos p HP).
  - exact (hem_pos p HP).
  - exact (Cm_nonneg p HP).
  - num. apply Rlt_le_trans with (1 / 10); [lra|apply Rmax_l].
  - num. apply Rlt_le_trans with (1 / 100000); [lra|apply Rmax_l].
Qed.

Lemma acc_map_fin {A} (f : A -> xr) (g : A -> R) l : (forall a, f a = Fin (g a)) ->
  accumulate (map f l) = Fin (accumulate (map g l)).
Proof. intros H. rewrite <- accumulate_fin, map_map. f_equal. apply map_ext. exact H. Qed.

Section Hour.
Variable p : params_t R.
Variable i : hinit R.
Hypothesis HI : init_ok i.
Hypothesis HA : 0 < st_floorArea (pa_structure p).
Hypothesis HD : 0 <= ve_dCp (pa_ventilation p).
Let P := map_params Fin p.
Let I' := map_hinit Fin i.

Lemma lightingLevel_fin sol : lightingLevel (pa_structure P) I' (map Fin sol) = Fin (lightingLevel (pa_structure p) i sol).
Proof.
  unfold lightingLevel. apply acc_map_fin. intros k.
  unfold I', P. cbn [map_hinit hi_areaNatRatio hi_ratios hi_shadingUse map_ratios ra_naturalLightRatio ra_naturalLightShadeRatioReduction
    map_params pa_structure map_structure st_irradianceForMaxShadingUse].
  rewrite !at9_fin, !zn_fin. pose proof (io_areaNat i HI).
  rewrite div_fin by lra. rewrite min_fin, !mul_fin, add_fin, mul_fin. reflexivity.
Qed.
Lemma efla_fin sol : electricForTotalLightArea (pa_structure P) I' (map Fin sol)
  = Fin (electricForTotalLightArea (pa_structure p) i sol).
Proof.
  unfold electricForTotalLightArea. rewrite lightingLevel_fin.
  unfold I'. cbn [map_hinit hi_areaNatRatio hi_maxRatio hi_elightNatural]. rewrite !zn_fin.
  pose proof (io_lux i HI). rewrite div_fin by lra. rewrite !sub_fin, !mul_fin, max_fin, !mul_fin, add_fin. reflexivity.
Qed.
Lemma qSolar_fin sol : qSolarHeatGain (pa_structure P) I' (map Fin sol) = Fin (qSolarHeatGain (pa_structure p) i sol).
Proof.
  unfold qSolarHeatGain. apply acc_map_fin. intros k.
  unfold I', P. cbn [map_hinit hi_ratios hi_shadingUse map_ratios ra_solarRatio ra_solarShadeRatioReduction
    map_params pa_structure map_structure st_irradianceForMaxShadingUse].
  rewrite !at9_fin. rewrite min_fin, !mul_fin, add_fin, mul_fin. reflexivity.
Qed.

Variable sc : sched R.
Variable w : weather R.
Variable th : thermal R.
Hypothesis HV : 0 <= sc_vent sc.
Let SC := map_sched Fin sc.
Let W := map_weather Fin w.
Let TH := map_thermal Fin th.

Lemma vent_fin : ventFlow P SC = Fin (ventFlow p sc).
Proof.
  unfold ventFlow, SC, P. cbn [map_sched sc_vent map_params map_structure pa_structure st_floorArea].
  rewrite lit_fin, mul_fin, div_fin by lra. reflexivity.
Qed.
Lemma vent_nonneg : 0 <= ventFlow p sc.
Proof. unfold ventFlow. num. apply Rmult_le_pos; [lra|]. left. apply Rinv_0_lt_compat, HA. Qed.
Lemma phiInt_fin : phiInt P I' SC W = Fin (phiInt p i sc w).
Proof.
  unfold phiInt. cbn [W map_weather we_sol]. rewrite efla_fin.
  unfold SC, P. cbn [map_sched sc_intEquip sc_intLight map_params map_lighting pa_lighting li_elecInternalGains].
  rewrite !mul_fin, add_fin. reflexivity.
Qed.
Lemma phiAir_fin : phiAir P I' SC W = Fin (phiAir p i sc w).
Proof.
  unfold phiAir. rewrite phiInt_fin. cbn [W map_weather we_sol]. rewrite qSolar_fin.
  unfold P. cbn [map_params map_settings pa_settings ss_phiSolFraction ss_phiIntFraction].
  rewrite !mul_fin, add_fin. reflexivity.
Qed.

Let vent := ventFlow p sc.
Let qWind := nmul (nmul (lit 769 10000) (hi_q4Pa i)) (npow (nmul (nmul (ve_dCp (pa_ventilation p)) (we_wind w)) (we_wind w)) (lit 667 1000)).
Let qStack := nmul (nmul (lit 146 10000) (hi_q4Pa i))
      (npow (nmul (nmul (lit 5 10) (hi_windImpactHz i)) (nmax (lit 1 100000) (nabs (nsub (we_temp w) (th_ti th))))) (lit 667 1000)).

Lemma wind_arg : 0 <= ve_dCp (pa_ventilation p) * we_wind w * we_wind w.
Proof. rewrite Rmult_assoc. apply Rmult_le_pos; [exact HD|]. apply Rle_0_sqr. Qed.
Lemma stack_arg : 0 < (5 / 10) * hi_windImpactHz i * Rmax (1 / 100000) (Rabs (we_temp w - th_ti th)).
Proof.
  pose proof (io_hz i HI). apply Rmult_lt_0_compat; [lra|].
  apply Rlt_le_trans with (1 / 100000); [lra|apply Rmax_l].
Qed.
Lemma qWind_nonneg : 0 <= qWind.
Proof.
  unfold qWind. num. pose proof (io_q4 i HI). apply Rmult_le_pos; [lra|]. apply Rpow_nonneg, wind_arg.
Qed.
Lemma qStack_pos : 0 < qStack.
Proof.
  unfold qStack. num. pose proof (io_q4 i HI). apply Rmult_lt_0_compat; [lra|]. apply Rpow_pos, stack_arg.
Qed.

Definition theFlows : flows R := airflow (pa_ventilation p) i (ventFlow p sc) (we_wind w) (we_temp w) (th_ti th).
Lemma qSupply_nonneg : 0 <= fl_qSupply theFlows.
Proof. unfold theFlows, airflow. cbn [fl_qSupply]. num. pose proof (io_sr i HI). apply Rmult_le_pos; [exact vent_nonneg|lra]. Qed.
Lemma qTotal_pos : 0 < fl_qTotal theFlows.
Proof.
  unfold theFlows, airflow. cbn [fl_qTotal]. fold qWind. fold qStack. fold vent.
  num. pose proof (io_sr i HI) as SR. pose proof vent_nonneg as VN. fold vent in VN.
  pose proof qStack_pos as QS. pose proof qWind_nonneg as QW.
  destruct (Rle_lt_or_eq_dec 0 vent VN) as [VP|V0].
  - assert (0 < vent * hi_windImpactSupplyRatio i) by (apply Rmult_lt_0_compat; lra).
    assert (forall a, 0 <= Rmax (0/1) a) by (intros a; eapply Rle_trans; [|apply Rmax_l]; lra).
    pose proof (H0 (- (vent * hi_windImpactSupplyRatio i - vent))).
    match goal with |- 0 < ?a + Rmax _ ?b + ?c => pose proof (H0 b) end. lra.
  - rewrite <- V0. replace (- (0 * hi_windImpactSupplyRatio i - 0)) with 0 by ring. rewrite Rabs_R0.
    replace (0 / 1) with 0 by lra. rewrite Rmax_left by lra.
    assert (0 < Rmax qStack qWind) by (eapply Rlt_le_trans; [exact QS|apply Rmax_l]).
    match goal with |- 0 < 0 + Rmax 0 ?b + _ => assert (0 < b) end. { rewrite Rmult_0_l. lra. }
    rewrite Rmax_right by lra. lra.
Qed.
Lemma flows_fin : airflow (pa_ventilation P) I' (ventFlow P SC) (we_wind W) (we_temp W) (th_ti TH) = map_flows Fin theFlows.
Proof.
  rewrite vent_fin.
  pose proof qTotal_pos as QT. unfold theFlows, airflow in QT. cbn [fl_qTotal] in QT. fold qWind qStack vent in QT.
  unfold theFlows, airflow. fold qWind qStack vent.
  unfold I', W, TH, P. cbn [map_hinit hi_windImpactSupplyRatio hi_q4Pa hi_windImpactHz map_weather we_wind we_temp map_thermal th_ti
    map_params map_ventilation pa_ventilation ve_heatRecoveryEfficiency ve_preheat ve_dCp].
  rewrite !zn_fin, !lit_fin.
  pose proof wind_arg as WA. pose proof stack_arg as SA.
  rewrite !sub_fin, !abs_fin, !max_fin, !mul_fin.
  rewrite (pow_fin0 (nmul (nmul (ve_dCp (pa_ventilation p)) (we_wind w)) (we_wind w)) (lit 667 1000))
    by (first [exact WA | num; lra]).
  rewrite (pow_fin _ (lit 667 1000)) by (num; exact SA).
  rewrite !mul_fin. fold qWind qStack.
  pose proof qStack_pos as QS. pose proof qWind_nonneg as QW.
  fin. rewrite (div_fin _ (nadd qStack qWind)) by (num; lra). fin.
  rewrite div_fin by (apply Rgt_not_eq; exact QT). reflexivity.
Qed.

Lemma hourNet_wf : net_wf (hourNet p i sc w th).
Proof.
  pose proof qTotal_pos as QT. pose proof (io_is i HI). pose proof (io_ms i HI). pose proof (io_win i HI).
  pose proof (io_em i HI). pose proof (io_C i HI).
  assert (He : 0 < ne_hei (hourNet p i sc w th)).
  { unfold hourNet, network. cbn [ne_hei]. fold theFlows. num. lra. }
  assert (HH1 : ne_h1 (hourNet p i sc w th) = ne_hei (hourNet p i sc w th) * hi_H_tris i / (ne_hei (hourNet p i sc w th) + hi_H_tris i)).
  { unfold hourNet, network in *. cbn [ne_hei ne_h1] in *. revert He. fold theFlows. num. intros He. field. repeat split; lra. }
  assert (P1 : 0 < ne_h1 (hourNet p i sc w th)).
  { rewrite HH1. apply Rdiv_lt_0_compat; [apply Rmult_lt_0_compat|]; lra. }
  constructor; try assumption.
  - reflexivity.
  - change (ne_H_ms (hourNet p i sc w th)) with (hi_H_ms i).
    assert (P2 : 0 < ne_h2 (hourNet p i sc w th)).
    { change (ne_h2 (hourNet p i sc w th)) with (ne_h1 (hourNet p i sc w th) + hi_hwin i). lra. }
    change (ne_h3 (hourNet p i sc w th)) with (1 / 1 / (1 / 1 / ne_h2 (hourNet p i sc w th) + 1 / 1 / hi_H_ms i)).
    field. repeat split; lra.
Qed.

Lemma hourNet_fin : hourNet P I' SC W TH = map_net Fin (hourNet p i sc w th).
Proof.
  pose proof hourNet_wf as WF.
  unfold hourNet at 1. rewrite flows_fin, phiInt_fin. replace (we_sol W) with (map Fin (we_sol w)) by reflexivity.
  rewrite qSolar_fin. unfold hourNet. fold theFlows.
  unfold network, map_net, map_flows. unfold I'. cbn [map_hinit hi_H_tris hi_hwin hi_H_ms hi_hem hi_Cm hi_prsSolar hi_prsInterior hi_prmSolar hi_prmInterior
    fl_qTotal fl_tEntering W map_weather we_temp
    ne_T ne_tEnt ne_hei ne_h1 ne_h2 ne_h3 ne_hwin ne_H_tris ne_H_ms ne_hem ne_Cm ne_phis0 ne_phim0].
  rewrite !zn_fin, !lit_fin, !mul_fin, !add_fin.
  pose proof (nw_hei _ WF) as Phei. pose proof (io_is i HI) as Pis. pose proof (io_ms i HI) as Pms.
  pose proof (nw_h2_pos _ WF) as P2. pose proof (io_win i HI) as Pw.
  unfold hourNet, network in Phei, P2. cbn [ne_hei ne_h2] in Phei, P2. fold theFlows in Phei, P2.
  set (hei := nmul (lit 34 100) (fl_qTotal theFlows)) in *.
  assert (Ph : 0 < zn 1 / hei + zn 1 / hi_H_tris i).
  { num. apply Rplus_lt_0_compat; apply Rdiv_lt_0_compat; lra. }
  rewrite !(div_fin (zn 1) hei), !(div_fin (zn 1) (hi_H_tris i)) by lra.
  rewrite !add_fin.
  rewrite !(div_fin (zn 1) (nadd (ndiv (zn 1) hei) (ndiv (zn 1) (hi_H_tris i)))) by (apply Rgt_not_eq; exact Ph).
  rewrite !add_fin.
  set (h2 := nadd (ndiv (zn 1) (nadd (ndiv (zn 1) hei) (ndiv (zn 1) (hi_H_tris i)))) (hi_hwin i)) in *.
  assert (Ph3 : 0 < zn 1 / h2 + zn 1 / hi_H_ms i).
  { num. apply Rplus_lt_0_compat; apply Rdiv_lt_0_compat; lra. }
  rewrite !(div_fin (zn 1) h2), !(div_fin (zn 1) (hi_H_ms i)) by lra.
  rewrite !add_fin.
  rewrite div_fin by (apply Rgt_not_eq; exact Ph3). reflexivity.
Qed.
End Hour.

(** ** The network solution on finite data *)
Section Net.
Variable n : net R.
Hypothesis WF : net_wf n.
Let N' := map_net Fin n.

Lemma phimTotal_fin phii : phimTotal N' (Fin phii) = Fin (phimTotal n phii).
Proof.
  pose proof (nw_hei n WF). pose proof (nw_h2_pos n WF).
  unfold phimTotal, N'. cbn [map_net ne_phim0 ne_hem ne_T ne_h3 ne_phis0 ne_hwin ne_h1 ne_hei ne_tEnt ne_h2].
  rewrite (div_fin phii) by lra. rewrite !mul_fin, !add_fin, !mul_fin, !add_fin, !mul_fin. rewrite div_fin by lra.
  rewrite add_fin. reflexivity.
Qed.
Lemma massTemp_fin t phii : massTemp N' (Fin t) (Fin phii) = Fin (massTemp n t phii).
Proof.
  pose proof (nw_den_pos n WF) as PD. unfold net_den in PD.
  unfold massTemp. rewrite phimTotal_fin. unfold N'. cbn [map_net ne_Cm ne_h3 ne_hem].
  rewrite !lit_fin. rewrite !(div_fin _ (lit 36 10)) by (num; lra).
  rewrite !add_fin, !mul_fin, !sub_fin, !add_fin, !mul_fin, !add_fin. rewrite div_fin; [reflexivity|]. num. lra.
Qed.
Lemma surfTemp_fin t phii : surfTemp N' (Fin t) (Fin phii) = Fin (surfTemp n t phii).
Proof.
  pose proof (nw_hei n WF). pose proof (nw_h1_pos n WF). pose proof (nw_ms n WF). pose proof (nw_win n WF).
  unfold surfTemp. rewrite massTemp_fin. unfold N'. cbn [map_net ne_H_ms ne_phis0 ne_hwin ne_T ne_h1 ne_tEnt ne_hei].
  rewrite lit_fin. rewrite (div_fin phii) by lra. rewrite !add_fin, !mul_fin, !add_fin.
  rewrite div_fin; [reflexivity|]. num. lra.
Qed.
Lemma airTemp_fin t phii : airTemp N' (Fin t) (Fin phii) = Fin (airTemp n t phii).
Proof.
  pose proof (nw_hei n WF). pose proof (nw_is n WF).
  unfold airTemp. rewrite surfTemp_fin. unfold N'. cbn [map_net ne_H_tris ne_hei ne_tEnt].
  rewrite !mul_fin, !add_fin. rewrite div_fin; [reflexivity|]. num. lra.
Qed.
Lemma plantPower_fin t phii lo hi : plantPower N' (Fin t) (Fin phii) (Fin lo) (Fin hi) = Fin (plantPower n t phii lo hi).
Proof.
  unfold plantPower. rewrite !zn_fin, add_fin, !airTemp_fin, !sub_fin, !mul_fin.
  assert (D : airTemp n t (phii + zn 10) - airTemp n t phii <> 0).
  { rewrite (airTemp_affine n t phii (zn 10) WF). pose proof (air_gain_pos n WF). num. lra. }
  rewrite !div_fin by exact D. rewrite max_fin, min_fin, add_fin. reflexivity.
Qed.
End Net.
