(** The model's hourly network equals the specification network of S_Network. *)
From Coq Require Import Reals Lra Psatz ZArith List Bool Lia.
From Verif Require Import Base Num Xr M_Params M_Hourly M_Map L_Xr L_HourlyR S_Physical L_HourlyFin L_HourlyFin2 S_RC S_Network.
Import ListNotations.
Open Scope R_scope.

(** ** The ratio vectors, for every number type *)
Section Ratios.
Context {T : Type} {N : Num T}.
Variable s : structure_t T.
Let A := st_floorArea s.
Definition pushed (n : nat) : ratios T :=
  {| ra_nlaWMovableShading := map (fun k => ndiv (su_nlams (surf_at s k)) A) (seq 0 n);
     ra_naturalLightRatio := map (fun k => ndiv (su_nla (surf_at s k)) A) (seq 0 n);
     ra_naturalLightShadeRatioReduction :=
       map (fun k => nsub (ndiv (su_nlams (surf_at s k)) A) (ndiv (su_nla (surf_at s k)) A)) (seq 0 n);
     ra_saWMovableShading := map (fun k => ndiv (su_sams (surf_at s k)) A) (seq 0 n);
     ra_solarRatio := map (fun k => ndiv (su_sa (surf_at s k)) A) (seq 0 n);
     ra_solarShadeRatioReduction :=
       map (fun k => nsub (ndiv (su_sams (surf_at s k)) A) (ndiv (su_sa (surf_at s k)) A)) (seq 0 n) |}.
Lemma at9_last (f : nat -> T) n : at9 (map f (seq 0 n) ++ [f n]) n = f n.
Proof. unfold at9. rewrite app_nth2; rewrite map_length, seq_length; [|lia]. rewrite Nat.sub_diag. reflexivity. Qed.
Lemma push_fresh n : fold_left (push_ratios s) (seq 0 n) no_ratios = pushed n.
Proof.
  induction n as [|n IH]; [reflexivity|].
  rewrite seq_S, fold_left_app, IH. cbn [fold_left plus]. unfold push_ratios, pushed.
  cbn [ra_nlaWMovableShading ra_naturalLightRatio ra_naturalLightShadeRatioReduction ra_saWMovableShading ra_solarRatio ra_solarShadeRatioReduction].
  rewrite !seq_S, !map_app. cbn [map plus]. fold A.
  rewrite (at9_last (fun k => ndiv (su_nlams (surf_at s k)) A) n), (at9_last (fun k => ndiv (su_nla (surf_at s k)) A) n),
    (at9_last (fun k => ndiv (su_sams (surf_at s k)) A) n), (at9_last (fun k => ndiv (su_sa (surf_at s k)) A) n).
  reflexivity.
Qed.
Lemma at9_map (f : nat -> T) k : (k < 9)%nat -> at9 (map f (seq 0 9)) k = f k.
Proof.
  intros H. unfold at9. rewrite (nth_indep _ _ (f 0%nat)) by (rewrite map_length, seq_length; exact H).
  rewrite map_nth. f_equal. apply seq_nth. exact H.
Qed.
End Ratios.

(** The two ways of writing the effective mass area agree. *)
Lemma massArea_spec (c : R) : massArea c = sp_mass_area c.
Proof.
  unfold massArea, sp_mass_area, clamp. cbv [zn]; cbn [lit nlt R_num]; cbv [Rlit].
  destruct (Rltb_spec (370/1) c); [|destruct (Rltb_spec (260/1) c); [|destruct (Rltb_spec (165/1) c)]]; num;
    unfold Rmax, Rmin; repeat destruct (Rle_dec _ _); lra.
Qed.
Lemma sp_mass_area_bounds c : 2.5 <= sp_mass_area c <= 3.5.
Proof. rewrite <- massArea_spec. apply massArea_bounds. Qed.
Lemma clamp01_le a b : a <= b -> clamp 0 1 a <= clamp 0 1 b.
Proof. intros H. unfold clamp, Rmax, Rmin. repeat destruct (Rle_dec _ _); lra. Qed.
Lemma clamp01_lip a b : a <= b -> clamp 0 1 b - clamp 0 1 a <= b - a.
Proof. intros H. unfold clamp, Rmax, Rmin. repeat destruct (Rle_dec _ _); lra. Qed.
Lemma sp_mass_area_mono a b : a <= b -> sp_mass_area a <= sp_mass_area b.
Proof.
  intros H. unfold sp_mass_area.
  pose proof (clamp01_le ((a - 165) / 95) ((b - 165) / 95) ltac:(lra)).
  pose proof (clamp01_le ((a - 260) / 110) ((b - 260) / 110) ltac:(lra)). lra.
Qed.
(** No jumps: the slope never exceeds 1/190. *)
Lemma sp_mass_area_lip a b : a <= b -> sp_mass_area b - sp_mass_area a <= (b - a) / 190.
Proof.
  intros H. rewrite <- !massArea_spec. unfold massArea. cbv [zn]; cbn [lit nlt R_num]; cbv [Rlit].
  repeat (match goal with |- context [Rltb ?x ?y] => destruct (Rltb_spec x y) end); num; lra.
Qed.

Section Spec.
Variable p : params_t R.
Hypothesis HP : physical p.
Variable i : hinit R.
Hypothesis HI : initialize p no_ratios = Ok i.
Let s := pa_structure p.

Lemma i_eq : let A := st_floorArea s in
  hi_maxRatio i = fst (lighting_control (pa_building p) (pa_lighting p)) /\
  hi_elightNatural i = snd (lighting_control (pa_building p) (pa_lighting p)) /\
  hi_areaNatRatio i = areaNatRatio p /\
  hi_shadingUse i = st_shadingFactorAtMaxUse s / st_irradianceForMaxShadingUse s /\
  hi_q4Pa i = q4Pa_of p /\ hi_H_tris i = H_tris_of p /\ hi_Cm i = Cm_of s /\ hi_hwin i = hwin_of s /\
  hi_H_ms i = H_ms_of p /\ hi_hem i = hem_of p /\
  hi_windImpactHz i = nmax (lit 1 10) (ve_hzone (pa_ventilation p)) /\
  hi_windImpactSupplyRatio i = nmax (lit 1 100000) (ve_fanControlFactor (pa_ventilation p)) /\
  hi_ratios i = pushed s 9.
Proof.
  pose proof HI as H. unfold initialize in H. rewrite (structure_nine_phys p HP) in H. cbn [negb] in H.
  apply ok_inj in H. rewrite <- H.
  cbn [hi_maxRatio hi_elightNatural hi_areaNatRatio hi_shadingUse hi_q4Pa hi_H_tris hi_Cm hi_hwin hi_H_ms hi_hem hi_windImpactHz hi_windImpactSupplyRatio hi_ratios].
  rewrite push_fresh. repeat split.
Qed.
Lemma i_prs : 
  let tapfa := st_totalAreaPerFloorArea s in
  let prs := (tapfa - massArea (Cm_of s) - hwin_of s / h_ms_of p) / tapfa in
  hi_prsInterior i = (1 - ss_phiIntFraction (pa_settings p)) * prs /\
  hi_prsSolar i = (1 - ss_phiSolFraction (pa_settings p)) * prs /\
  hi_prmInterior i = (1 - ss_phiIntFraction (pa_settings p)) * (massArea (Cm_of s) / tapfa) /\
  hi_prmSolar i = (1 - ss_phiSolFraction (pa_settings p)) * (massArea (Cm_of s) / tapfa).
Proof.
  pose proof HI as H. unfold initialize in H. rewrite (structure_nine_phys p HP) in H. cbn [negb] in H.
  apply ok_inj in H. rewrite <- H.
  cbn [hi_prsInterior hi_prsSolar hi_prmInterior hi_prmSolar]. replace (zn 1 : R) with 1 by (num; lra). repeat split.
Qed.

Lemma Rsum_fold l : Rsum l = fold_left Rplus l 0.
Proof.
  induction l as [|a l IH]; [reflexivity|]. cbn [fold_left]. rewrite fold_add_acc.
  change (Rsum (a :: l)) with (a + Rsum l). rewrite IH. lra.
Qed.
Lemma accumulate_Rsum (l : list R) : accumulate l = Rsum l.
Proof. rewrite accumulate_R, Rsum_fold. reflexivity. Qed.

Lemma Cm_spec : Cm_of s = sp_capacity p.
Proof.
  unfold Cm_of, sp_capacity. rewrite accumulate_Rsum. fold s. pose proof (phy_area p HP) as PA. fold s in PA.
  num. field. lra.
Qed.
Lemma h_ms_spec : h_ms_of p = sp_h_ms p.
Proof. unfold h_ms_of, sp_h_ms. num. lra. Qed.
Lemma is_spec : H_tris_of p = sp_is p.
Proof.
  pose proof (h_ms_gt p HP) as G. pose proof (phy_hci p HP) as C.
  unfold H_tris_of, sp_is. rewrite <- h_ms_spec. fold s. num.
  set (c := ss_hci (pa_settings p)) in *. set (h := h_ms_of p) in *. field.
  repeat split; lra.
Qed.
Lemma win_spec : hwin_of s = sp_windows p.
Proof. unfold hwin_of, sp_windows. pose proof (hWind_dot p HP) as E. fold s in E. rewrite E. reflexivity. Qed.
Lemma opaque_spec : hOpaque_of s = sp_opaque p.
Proof. unfold hOpaque_of, sp_opaque. pose proof (hWall_dot p HP) as E. fold s in E. rewrite E. num. reflexivity. Qed.
Lemma ms_spec : H_ms_of p = sp_ms p.
Proof. unfold H_ms_of, sp_ms. fold s. rewrite massArea_spec, Cm_spec, h_ms_spec. reflexivity. Qed.
Lemma em_spec : hem_of p = sp_em p.
Proof.
  unfold hem_of, sp_em. fold s. pose proof (hOpaque_lt_ms p HP) as L. pose proof (hOpaque_pos p) as P1. pose proof (H_ms_pos p HP) as P2.
  fold s in L, P1. rewrite <- opaque_spec, <- ms_spec. num.
  set (h := H_ms_of p) in *. set (o := hOpaque_of s) in *. field. repeat split; lra.
Qed.

Lemma solar_spec sol : qSolarHeatGain s i sol = sp_solar p sol.
Proof.
  destruct i_eq as (_&_&_&ES&_&_&_&_&_&_&_&_&ER).
  unfold qSolarHeatGain, sp_solar. rewrite accumulate_Rsum, ER, ES. unfold pushed.
  cbn [ra_solarRatio ra_solarShadeRatioReduction]. f_equal. apply map_ext_in. intros k Hk. apply in_seq in Hk.
  rewrite !at9_map by lia. unfold sp_shade, sp_aperture, surf_at, structureCalculations. cbn [su_sa su_sams]. fold s.
  unfold at9. num. replace (0/1) with 0 by lra. ring.
Qed.
Lemma lit_spec : areaNatRatio p = sp_lit_ratio p.
Proof. unfold areaNatRatio, sp_lit_ratio. num. reflexivity. Qed.
Lemma daylight_spec sol : lightingLevel s i sol = sp_daylight p sol.
Proof.
  destruct i_eq as (_&_&EA&ES&_&_&_&_&_&_&_&_&ER).
  unfold lightingLevel, sp_daylight. rewrite accumulate_Rsum, ER, ES, EA, lit_spec. unfold pushed.
  cbn [ra_naturalLightRatio ra_naturalLightShadeRatioReduction]. f_equal. apply map_ext_in. intros k Hk. apply in_seq in Hk.
  rewrite !at9_map by lia. unfold surf_at, structureCalculations. cbn [su_nla su_nlams]. fold s.
  unfold at9. num. replace (0/1) with 0 by lra. replace (87/100) with 0.87 by lra. replace (53/1) with 53 by lra.
  match goal with |- _ * (?a + ?b * (?c - ?d) * ?e) = _ => replace (c - d) with 0 by ring end. ring.
Qed.
Lemma control_spec : lighting_control (pa_building p) (pa_lighting p) = sp_control p.
Proof.
  unfold lighting_control, sp_control. cbv [zn]; cbn [lit nlt R_num]; cbv [Rlit]. replace (1/1) with 1 by lra.
  destruct (Rltb_spec (bu_lightingOccupancySensor (pa_building p)) 1) as [Ha|Ha],
           (Rltb_spec (li_dimmingFraction (pa_lighting p)) 1) as [Hb|Hb]; cbn [andb];
    destruct (Rlt_dec (bu_lightingOccupancySensor (pa_building p)) 1), (Rlt_dec (li_dimmingFraction (pa_lighting p)) 1); first [reflexivity | lra].
Qed.
Lemma lights_spec sol : electricForTotalLightArea s i sol = sp_lights_on p sol.
Proof.
  destruct i_eq as (EM&EL&EA&_).
  unfold electricForTotalLightArea, sp_lights_on. rewrite daylight_spec, EM, EL, EA, lit_spec, control_spec.
  destruct (sp_control p) as [ad lux]. cbn [fst snd]. num. replace (0/1) with 0 by lra. replace (1/1) with 1 by lra. ring.
Qed.

Variable sc : sched R.
Variable w : weather R.
Variable th : thermal R.
Lemma internal_spec : phiInt p i sc w = sp_internal p (sc_intEquip sc) (sc_intLight sc) (we_sol w).
Proof. unfold phiInt, sp_internal. fold s. rewrite lights_spec. reflexivity. Qed.
Lemma vent_spec : ventFlow p sc = sp_vent p (sc_vent sc).
Proof. unfold ventFlow, sp_vent. num. reflexivity. Qed.
Lemma leak_spec : q4Pa_of p = sp_leak p.
Proof.
  unfold q4Pa_of, sp_leak. fold s. pose proof (phy_area p HP) as PA. fold s in PA. num. f_equal. replace 0.19 with (19 / 100) by lra. field. lra.
Qed.
Lemma flows_spec :
  let f := airflow (pa_ventilation p) i (ventFlow p sc) (we_wind w) (we_temp w) (th_ti th) in
  fl_qSupply f = sp_supply p (sc_vent sc) /\
  fl_qTotal f = sp_total p (sc_vent sc) (we_wind w) (we_temp w) (th_ti th) /\
  fl_tEntering f = sp_mixed p (sc_vent sc) (we_wind w) (we_temp w) (th_ti th).
Proof.
  destruct i_eq as (_&_&_&_&EQ&_&_&_&_&_&EH&ESR&_). intros f.
  assert (ES : fl_qSupply f = sp_supply p (sc_vent sc)).
  { unfold f, airflow, sp_supply. cbn [fl_qSupply]. rewrite ESR, vent_spec. num. reflexivity. }
  assert (EX : - (fl_qSupply f - ventFlow p sc) = sp_unbalance p (sc_vent sc)).
  { rewrite ES, vent_spec. unfold sp_unbalance. ring. }
  assert (EE : fl_qEnvelope f = sp_envelope p (sc_vent sc) (we_wind w) (we_temp w) (th_ti th)).
  { change (fl_qEnvelope f) with (nadd (nmax (zn 0) (- (fl_qSupply f - ventFlow p sc))) (nmax (zn 0)
      (nsub (nmax (nmul (nmul (lit 146 10000) (hi_q4Pa i))
      (npow (nmul (nmul (lit 5 10) (hi_windImpactHz i)) (nmax (lit 1 100000) (nabs (nsub (we_temp w) (th_ti th))))) (lit 667 1000)))
       (nmul (nmul (lit 769 10000) (hi_q4Pa i)) (npow (nmul (nmul (ve_dCp (pa_ventilation p)) (we_wind w)) (we_wind w)) (lit 667 1000))))
       (nmul (nabs (- (fl_qSupply f - ventFlow p sc))) (nadd (nmul (lit 5 10) (nmul (nmul (lit 146 10000) (hi_q4Pa i))
      (npow (nmul (nmul (lit 5 10) (hi_windImpactHz i)) (nmax (lit 1 100000) (nabs (nsub (we_temp w) (th_ti th))))) (lit 667 1000))))
       (ndiv (nmul (lit 667 1000) (nmul (nmul (lit 769 10000) (hi_q4Pa i)) (npow (nmul (nmul (ve_dCp (pa_ventilation p)) (we_wind w)) (we_wind w)) (lit 667 1000))))
         (nadd (nmul (nmul (lit 146 10000) (hi_q4Pa i))
      (npow (nmul (nmul (lit 5 10) (hi_windImpactHz i)) (nmax (lit 1 100000) (nabs (nsub (we_temp w) (th_ti th))))) (lit 667 1000))) (nmul (nmul (lit 769 10000) (hi_q4Pa i)) (npow (nmul (nmul (ve_dCp (pa_ventilation p)) (we_wind w)) (we_wind w)) (lit 667 1000)))))))))).
    rewrite EX, EQ, EH, leak_spec. unfold sp_envelope, sp_exfiltration.
    assert (W : (nmul (nmul (lit 769 10000) (sp_leak p)) (npow (nmul (nmul (ve_dCp (pa_ventilation p)) (we_wind w)) (we_wind w)) (lit 667 1000))) = sp_wind p (we_wind w)).
    { unfold sp_wind. num. replace (769/10000) with 0.0769 by lra. replace (667/1000) with 0.667 by lra. rewrite (Rmult_assoc (ve_dCp _)). reflexivity. }
    assert (K : nmul (nmul (lit 146 10000) (sp_leak p)) (npow (nmul (nmul (lit 5 10) (nmax (lit 1 10) (ve_hzone (pa_ventilation p)))) (nmax (lit 1 100000) (nabs (nsub (we_temp w) (th_ti th))))) (lit 667 1000)) = sp_stack p (we_temp w) (th_ti th)).
    { unfold sp_stack. num. replace (146/10000) with 0.0146 by lra. replace (667/1000) with 0.667 by lra. replace (5/10) with 0.5 by lra. reflexivity. }
    rewrite W, K. num. replace (667/1000) with 0.667 by lra. replace (5/10) with 0.5 by lra. replace (0/1) with 0 by lra. reflexivity. }
  assert (ET : fl_qTotal f = sp_total p (sc_vent sc) (we_wind w) (we_temp w) (th_ti th)).
  { change (fl_qTotal f) with (fl_qEnvelope f + fl_qSupply f). rewrite EE, ES. reflexivity. }
  repeat split; try assumption.
  change (fl_tEntering f) with ((we_temp w * fl_qEnvelope f + (nmax (ve_preheat (pa_ventilation p)) (nadd (nmul (nsub (zn 1) (ve_heatRecoveryEfficiency (pa_ventilation p))) (we_temp w)) (nmul (ve_heatRecoveryEfficiency (pa_ventilation p)) (zn 20)))) * fl_qSupply f) / fl_qTotal f).
  rewrite EE, ES, ET. unfold sp_mixed, sp_supplied. num. replace (1/1) with 1 by lra. replace (20/1) with 20 by lra. reflexivity.
Qed.

Lemma rc_eq a b c d e f g h j k l a' b' c' d' e' f' g' h' j' k' l' :
  a = a' -> b = b' -> c = c' -> d = d' -> e = e' -> f = f' -> g = g' -> h = h' -> j = j' -> k = k' -> l = l' ->
  mkRC a b c d e f g h j k l = mkRC a' b' c' d' e' f' g' h' j' k' l'.
Proof. intros; subst; reflexivity. Qed.

Lemma hour_rc_spec : to_rc (hourNet p i sc w th) (phiAir p i sc w)
  = hour_rc p (sc_vent sc) (sc_intEquip sc) (sc_intLight sc) (we_wind w) (we_temp w) (we_sol w) (th_ti th).
Proof.
  destruct i_eq as (_&_&_&_&_&EI&EC&EW&EM&EE&_&_&_). destruct i_prs as (E1&E2&E3&E4). destruct flows_spec as (_&FT&FE).
  unfold to_rc, hour_rc. apply rc_eq; unfold hourNet, network;
    cbn [ne_hei ne_H_tris ne_hwin ne_H_ms ne_hem ne_Cm ne_T ne_tEnt ne_phis0 ne_phim0].
  - rewrite FT. reflexivity.
  - rewrite EI. apply is_spec.
  - rewrite EW. apply win_spec.
  - rewrite EM. apply ms_spec.
  - rewrite EE. apply em_spec.
  - rewrite EC. apply Cm_spec.
  - reflexivity.
  - exact FE.
  - unfold phiAir. fold s. rewrite solar_spec, internal_spec. reflexivity.
  - fold s. rewrite solar_spec, internal_spec, E1, E2, massArea_spec, Cm_spec, win_spec, h_ms_spec. fold s. num. ring.
  - fold s. rewrite solar_spec, internal_spec, E3, E4, massArea_spec, Cm_spec. fold s. num. ring.
Qed.
End Spec.
