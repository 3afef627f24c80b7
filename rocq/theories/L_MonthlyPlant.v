(** C30, C31: delivered energy and pumps. *)
From Coq Require Import Reals Lra Psatz ZArith List Bool Lia.
From Verif Require Import Base Num Xr M_Params M_Monthly M_Map L_Xr L_HourlyShape L_HourlyFin2 L_Office S_Calendar S_Schedule S_Results S_Monthly S_Physical S_MonthlyPlant
  L_Monthly L_Monthly2 L_Monthly3 L_Monthly4 L_Monthly5 L_MonthlyFin2.
Import ListNotations.
Open Scope R_scope.

Lemma share_pos a : 0 < Rmax a (1 / 10).
Proof. eapply Rlt_le_trans; [|apply Rmax_r]. lra. Qed.
Lemma tenth : @lit R _ 1 10 = 1 / 10. Proof. reflexivity. Qed.
Lemma demandHt_fin a b : b + a <> 0 -> demandHt (Fin a) (Fin b) = Fin (Rmax (a / (b + a)) (1 / 10)).
Proof. intros H. unfold demandHt. rewrite add_fin, div_fin' by exact H. rewrite lit_fin, max_fin, nmax_R. reflexivity. Qed.
Lemma demandCl_fin a b : b + a <> 0 -> demandCl (Fin a) (Fin b) = Fin (Rmax (1 - Rmax (a / (b + a)) (1 / 10)) (1 / 10)).
Proof. intros H. unfold demandCl. rewrite demandHt_fin by exact H. rewrite (zn_fin 1), zn_R, sub_fin, lit_fin, max_fin, nmax_R. reflexivity. Qed.

Section Plant.
Context (p : params_t R) (qh qc : list R) (OK : plant_ok p) (TOT : Rsum qc + Rsum qh <> 0).
Definition Dh : R := 1 + ht_hvacLossFactor (pa_heating p) + ht_hotcoldWasteFactor (pa_heating p) / heating_share qh qc.
Definition Dc : R := 1 + cl_hvacLossFactor (pa_cooling p) + ht_hotcoldWasteFactor (pa_heating p) / cooling_share qh qc.
Lemma Dh_pos : 0 < Dh.
Proof.
  unfold Dh. pose proof (pl_loss p OK). assert (0 <= ht_hotcoldWasteFactor (pa_heating p) / heating_share qh qc); [|lra].
  apply Rmult_le_pos; [apply OK|]. apply Rlt_le, Rinv_0_lt_compat, share_pos.
Qed.
Lemma Dc_pos : 0 < Dc.
Proof.
  unfold Dc. pose proof (pl_closs p OK). assert (0 <= ht_hotcoldWasteFactor (pa_heating p) / cooling_share qh qc); [|lra].
  apply Rmult_le_pos; [apply OK|]. apply Rlt_le, Rinv_0_lt_compat, share_pos.
Qed.
Lemma distHt_fin : distHt (map_params Fin p) (Fin (Rsum qh)) (Fin (Rsum qc)) = Fin (1 / Dh).
Proof.
  unfold distHt. rewrite demandHt_fin by exact TOT. cbn [map_params pa_heating map_heating ht_hvacLossFactor ht_hotcoldWasteFactor].
  rewrite (zn_fin 1), zn_R, add_fin. rewrite div_fin' by (apply Rgt_not_eq, share_pos). rewrite add_fin. pose proof Dh_pos as D. apply div_fin'. change (Dh <> 0). lra.
Qed.
Lemma distCl_fin : distCl (map_params Fin p) (Fin (Rsum qh)) (Fin (Rsum qc)) = Fin (1 / Dc).
Proof.
  unfold distCl. rewrite demandCl_fin by exact TOT. cbn [map_params pa_heating pa_cooling map_heating map_cooling cl_hvacLossFactor ht_hotcoldWasteFactor].
  rewrite (zn_fin 1), zn_R, add_fin. rewrite div_fin' by (apply Rgt_not_eq, share_pos). rewrite add_fin. pose proof Dc_pos as D. apply div_fin'. change (Dc <> 0). lra.
Qed.
Lemma vadd_map (f : R -> R) l : vadd l (map f l) = map (fun q => q + f q) l.
Proof. induction l; [reflexivity|]. unfold vadd in *. cbn [zipw map]. now rewrite IHl. Qed.
Lemma vadd_map' (f : R -> R) l : vadd (map f l) l = map (fun q => f q + q) l.
Proof. induction l; [reflexivity|]. unfold vadd in *. cbn [zipw map]. now rewrite IHl. Qed.
Lemma vadd_zero (l : list R) : length l = 12%nat -> vadd (all12 (zn 0)) l = l.
Proof.
  unfold all12, vadd. generalize 12%nat. intros n H. rewrite <- H. clear H. induction l; [reflexivity|]. cbn [length repeat zipw]. rewrite IHl, zn_R. ops. f_equal. lra.
Qed.
Lemma vadd_zero' (l : list R) : length l = 12%nat -> vadd l (all12 (zn 0)) = l.
Proof.
  unfold all12, vadd. generalize 12%nat. intros n H. rewrite <- H. clear H. induction l; [reflexivity|]. cbn [length repeat zipw]. rewrite IHl, zn_R. ops. f_equal. lra.
Qed.
Lemma distLoss_fin q D : 0 < D -> distLoss (map Fin q) (Fin (1 / D)) = map Fin (map (fun x => x * (D - 1)) q).
Proof.
  intros H. unfold distLoss. rewrite (zn_fin 1), zn_R, sub_fin, scale_fin, divs_fin. assert (1 / D <> 0) by (apply Rgt_not_eq; unfold Rdiv; rewrite Rmult_1_l; now apply Rinv_0_lt_compat).
  rewrite divs_R by assumption. unfold scale. rewrite !map_map. apply map_ext. intros x. f_equal. ops. field. lra.
Qed.
Lemma lossy_h : map (fun q => q + q * (Dh - 1)) qh = map (with_heating_losses p qh qc) qh.
Proof. apply map_ext. intros q. unfold with_heating_losses, Dh. ring. Qed.
Lemma lossy_c : map (fun q => q + q * (Dc - 1)) qc = map (with_cooling_losses p qh qc) qc.
Proof. apply map_ext. intros q. unfold with_cooling_losses, Dc. ring. Qed.
Lemma zero_divs (s : R) f : s <> 0 -> divs (scale (all12 (zn 0)) f) s = all12 (@zn R _ 0).
Proof. intros H. rewrite divs_R by exact H. unfold scale, all12. cbn [map repeat]. rewrite zn_R. ops. replace (0 * f / s) with 0 by (field; exact H). reflexivity. Qed.

Lemma zero_r (f : R -> R) l : length l = 12%nat -> vadd (map (fun x => Fin (f x)) l) (map Fin (all12 (zn 0))) = map (fun x => Fin (f x)) l.
Proof. intros H. rewrite <- (map_map f Fin), vadd_fin, vadd_zero' by (now rewrite map_length). reflexivity. Qed.
Lemma zero_l (f : R -> R) l : length l = 12%nat -> vadd (map Fin (all12 (zn 0))) (map (fun x => Fin (f x)) l) = map (fun x => Fin (f x)) l.
Proof. intros H. rewrite <- (map_map f Fin), vadd_fin, vadd_zero by (now rewrite map_length). reflexivity. Qed.
Lemma scale_map (f : R -> R) l s : scale (map (fun x => Fin (f x)) l) (Fin s) = map (fun x => Fin (f x * s)) l.
Proof. unfold scale. rewrite map_map. apply map_ext. intros x. now rewrite mul_fin. Qed.
Lemma divs_map (f : R -> R) l s : s <> 0 -> divs (map (fun x => Fin (f x)) l) (Fin s) = map (fun x => Fin (f x / s)) l.
Proof. intros H. unfold divs. rewrite map_map. apply map_ext. intros x. now rewrite sdiv_fin, sdiv_R. Qed.

Lemma hvac_fin : length qh = 12%nat -> length qc = 12%nat ->
  let h := hvac (map_params Fin p) (map Fin qh) (map Fin qc) (Fin (Rsum qh)) (Fin (Rsum qc)) in
  let z := repeat (Fin 0) 12 in
  let plant := map (fun q => Fin (with_heating_losses p qh qc q / (ht_efficiency (pa_heating p) + Rdblmin))) qh in
  let district := map (fun q => Fin (with_heating_losses p qh qc q * (1 - ht_frac_DH_free (pa_heating p)) / (ht_eta_DH_sys (pa_heating p) * ht_eta_DH_network (pa_heating p)))) qh in
  let chiller := map (fun q => Fin (with_cooling_losses p qh qc q / (cl_cop (pa_cooling p) * cl_partialLoadValue (pa_cooling p) + Rdblmin))) qc in
  let dchiller := map (fun q => Fin (with_cooling_losses p qh qc q * (1 - cl_eta_DC_frac_abs (pa_cooling p)) / (cl_eta_DC_COP (pa_cooling p) * cl_eta_DC_network (pa_cooling p)))) qc in
  let absorber := map (fun q => Fin (with_cooling_losses p qh qc q * (1 - cl_frac_DC_free (pa_cooling p)) / cl_eta_DC_COP_abs (pa_cooling p))) qc in
  (ht_DH_YesNo (pa_heating p) <> 1 -> ht_energyType (pa_heating p) = 1 -> hv_elec_ht h = plant /\ hv_gas_ht h = z) /\
  (ht_DH_YesNo (pa_heating p) <> 1 -> ht_energyType (pa_heating p) <> 1 -> hv_elec_ht h = z /\ hv_gas_ht h = plant) /\
  (ht_DH_YesNo (pa_heating p) = 1 -> hv_elec_ht h = z /\ hv_gas_ht h = district) /\
  (cl_DC_YesNo (pa_cooling p) <> 1 -> hv_elec_cl h = chiller /\ hv_gas_cl h = z) /\
  (cl_DC_YesNo (pa_cooling p) = 1 -> hv_elec_cl h = dchiller /\ hv_gas_cl h = absorber).
Proof.
  intros L1 L2. pose proof Rdblmin_pos as DM. pose proof Dh_pos as D1. pose proof Dc_pos as D2. destruct OK as [pA pl pc pw pe pp pd pD pa]. cbv zeta.
  unfold hvac. rewrite distHt_fin, distCl_fin, !distLoss_fin by assumption.
  cbn [map_params pa_heating pa_cooling map_heating map_cooling ht_DH_YesNo ht_energyType ht_efficiency ht_frac_DH_free ht_eta_DH_sys ht_eta_DH_network
    cl_DC_YesNo cl_cop cl_partialLoadValue cl_eta_DC_frac_abs cl_eta_DC_COP cl_eta_DC_network cl_frac_DC_free cl_eta_DC_COP_abs hv_elec_ht hv_gas_ht hv_elec_cl hv_gas_cl].
  rewrite (zn_fin 1), (zn_fin 0), !eqb_fin, dblmin_fin, !mul_fin, !add_fin, !sub_fin, !all12_fin, !vadd_fin, !divs_fin.
  rewrite !vadd_map, !vadd_map'.
  rewrite (map_ext (fun q => q * (Dh - 1) + q) (fun q => q + q * (Dh - 1))) by (intros; ring). rewrite (map_ext (fun q => q * (Dc - 1) + q) (fun q => q + q * (Dc - 1))) by (intros; ring).
  rewrite lossy_h, lossy_c. rewrite !divs_R by (ops; lra). rewrite !map_map.
  assert (Z : map Fin (all12 (zn 0)) = repeat (Fin 0) 12) by (unfold all12; rewrite zn_R, repeat_fin; reflexivity).
  assert (E1 : forall a, neqb a (zn 1) = Reqb a 1) by (intros a; rewrite zn_R; reflexivity). rewrite !E1.
  split; [|split; [|split; [|split]]].
  - intros A B. rewrite (Reqb_false _ 1 A), (Reqb_true _ 1 B). rewrite scale_fin, divs_fin, zero_divs by (ops; lra). split; [reflexivity|exact Z].
  - intros A B. rewrite (Reqb_false _ 1 A), (Reqb_false _ 1 B). rewrite scale_fin, divs_fin, zero_divs by (ops; lra). split; [exact Z|]. now rewrite zero_r.
  - intros A. rewrite (Reqb_true _ 1 A). rewrite scale_map, divs_map by (ops; lra). rewrite zero_l by exact L1. destruct (Reqb (ht_energyType (pa_heating p)) 1); (split; [exact Z|]); rewrite zn_R; reflexivity.
  - intros A. rewrite (Reqb_false _ 1 A). rewrite !scale_fin, !divs_fin, !zero_divs by (ops; lra). split; [|exact Z]. now rewrite zero_r.
  - intros A. rewrite (Reqb_true _ 1 A). rewrite !scale_map, !divs_map by (ops; lra). rewrite zero_l by exact L2. rewrite !zn_R. split; reflexivity.
Qed.
End Plant.

(** *** Columns of the table *)
Lemma perArea_map p (f : R -> R) l : 0 < st_floorArea (pa_structure p) ->
  perArea (Fin (st_floorArea (pa_structure p))) (map (fun x => Fin (f x)) l) = map (fun x => Fin (kWh_m2 p (f x))) l.
Proof. intros H. pose proof kWh_pos. unfold perArea. rewrite kWh_fin, divs_map by lra. now rewrite divs_map by lra. Qed.
Lemma perArea_zero p : 0 < st_floorArea (pa_structure p) -> perArea (Fin (st_floorArea (pa_structure p))) (repeat (Fin 0) 12) = repeat (Fin 0) 12.
Proof.
  intros H. pose proof kWh_pos. change (repeat (Fin 0) 12) with (map (fun _ : nat => Fin 0) (seq 0 12)) at 1. unfold perArea, divs. rewrite kWh_fin, !map_map.
  transitivity (map (fun _ : nat => Fin 0) (seq 0 12)); [|reflexivity]. apply map_ext. intros x. rewrite !sdiv_fin, !sdiv_R by lra. f_equal. field. lra.
Qed.
Lemma needs_yr p w m qh qc : run (map_params Fin p) w m -> ne_ht (mr_needs m) = map Fin qh -> ne_cl (mr_needs m) = map Fin qc ->
  ne_ht_yr (mr_needs m) = Fin (Rsum qh) /\ ne_cl_yr (mr_needs m) = Fin (Rsum qc) /\ length qh = 12%nat /\ length qc = 12%nat.
Proof.
  intros RU H C. destruct (run_lengths _ _ _ RU) as (_ & _ & L1 & L2 & _). rewrite H, map_length in L1. rewrite C, map_length in L2.
  assert (Y : ne_ht_yr (mr_needs m) = vsum (ne_ht (mr_needs m)) /\ ne_cl_yr (mr_needs m) = vsum (ne_cl (mr_needs m))) by (rewrite (rn_needs _ _ _ RU); split; reflexivity).
  destruct Y as [-> ->]. rewrite H, C, !vsum_fin, !vsum_R. auto.
Qed.
Lemma simulate_columns {T} {N : Num T} p w m rows : monthlyAll p w = Ok m -> simulateMonthly p w = Ok rows ->
  run p w m /\ table_shape 12 rows /\ forall k c, nth_error (columns p m) k = Some c -> is_series k rows c.
Proof.
  intros M S. assert (RU := monthlyAll_run _ _ _ M). split; [exact RU|]. unfold simulateMonthly in S. rewrite M in S. cbn [obind] in S.
  destruct (run_rows _ _ _ RU) as (rows' & E & X). change (outputRows (columns p m) = Ok rows) in S. rewrite E in S. apply ok_inj in S. now subst rows'.
Qed.
Lemma C30_l p w m rows qh qc : plant_ok p -> monthlyAll (map_params Fin p) w = Ok m -> simulateMonthly (map_params Fin p) w = Ok rows ->
  ne_ht (mr_needs m) = map Fin qh -> ne_cl (mr_needs m) = map Fin qc -> Rsum qc + Rsum qh <> 0 ->
  let z := repeat (Fin 0) 12 in
  let heat e := map (fun q => Fin (kWh_m2 p (with_heating_losses p qh qc q / e))) qh in
  let cool e := map (fun q => Fin (kWh_m2 p (with_cooling_losses p qh qc q / e))) qc in
  let he := pa_heating p in let co := pa_cooling p in
  (ht_DH_YesNo he <> 1 -> ht_energyType he = 1 -> is_series elec_heating rows (heat (ht_efficiency he + Rdblmin)) /\ is_series gas_heating rows z) /\
  (ht_DH_YesNo he <> 1 -> ht_energyType he <> 1 -> is_series elec_heating rows z /\ is_series gas_heating rows (heat (ht_efficiency he + Rdblmin))) /\
  (ht_DH_YesNo he = 1 -> is_series elec_heating rows z /\
     is_series gas_heating rows (map (fun q => Fin (kWh_m2 p (with_heating_losses p qh qc q * (1 - ht_frac_DH_free he) / (ht_eta_DH_sys he * ht_eta_DH_network he)))) qh)) /\
  (cl_DC_YesNo co <> 1 -> is_series elec_cooling rows (cool (cl_cop co * cl_partialLoadValue co + Rdblmin)) /\ is_series gas_cooling rows z) /\
  (cl_DC_YesNo co = 1 ->
     is_series elec_cooling rows (map (fun q => Fin (kWh_m2 p (with_cooling_losses p qh qc q * (1 - cl_eta_DC_frac_abs co) / (cl_eta_DC_COP co * cl_eta_DC_network co)))) qc) /\
     is_series gas_cooling rows (map (fun q => Fin (kWh_m2 p (with_cooling_losses p qh qc q * (1 - cl_frac_DC_free co) / cl_eta_DC_COP_abs co))) qc)).
Proof.
  intros OK M SM H C T. cbv zeta. destruct (simulate_columns _ _ _ _ M SM) as (RU & _ & S).
  pose proof (S elec_heating _ eq_refl) as S1. pose proof (S gas_heating _ eq_refl) as S2. pose proof (S elec_cooling _ eq_refl) as S3. pose proof (S gas_cooling _ eq_refl) as S4. clear S.
  change (st_floorArea (pa_structure (map_params Fin p))) with (Fin (st_floorArea (pa_structure p))) in *.
  destruct (needs_yr p w m qh qc RU H C) as (Y1 & Y2 & L1 & L2). rewrite (rn_hvac _ _ _ RU), H, C, Y1, Y2 in S1, S2, S3, S4.
  pose proof (pl_area p OK) as A. destruct (hvac_fin p qh qc OK T L1 L2) as (H1 & H2 & H3 & H4 & H5). cbv zeta in *.
  split; [|split; [|split; [|split]]].
  - intros X1 X2. destruct (H1 X1 X2) as [E1 E2]. rewrite E1, perArea_map in S1 by exact A. rewrite E2, perArea_zero in S2 by exact A. now split.
  - intros X1 X2. destruct (H2 X1 X2) as [E1 E2]. rewrite E1, perArea_zero in S1 by exact A. rewrite E2, perArea_map in S2 by exact A. now split.
  - intros X1. destruct (H3 X1) as [E1 E2]. rewrite E1, perArea_zero in S1 by exact A. rewrite E2, perArea_map in S2 by exact A. now split.
  - intros X1. destruct (H4 X1) as [E1 E2]. rewrite E1, perArea_map in S3 by exact A. rewrite E2, perArea_zero in S4 by exact A. now split.
  - intros X1. destruct (H5 X1) as [E1 E2]. rewrite E1, perArea_map in S3 by exact A. rewrite E2, perArea_map in S4 by exact A. now split.
Qed.

(** The gas for absorption cooling does not depend on the share of absorption chillers. *)
Lemma C30_absorption_l p x w rows rows' : simulateMonthly (map_params Fin p) w = Ok rows -> simulateMonthly (map_params Fin (set_absorption p x)) w = Ok rows' ->
  exists v, is_series gas_cooling rows v /\ is_series gas_cooling rows' v.
Proof.
  intros S S'. destruct (simulateMonthly_cases _ _ _ S) as (m & E & _ & X). destruct (simulateMonthly_cases _ _ _ S') as (m' & E' & _ & X').
  specialize (X gas_cooling _ eq_refl). specialize (X' gas_cooling _ eq_refl).
  assert (Eoc : mr_occ m' = mr_occ m) by (rewrite (rn_oc _ _ _ E), (rn_oc _ _ _ E'); reflexivity).
  assert (Ebd : mr_bd m' = mr_bd m). { pose proof (rn_bd _ _ _ E') as B'. rewrite Eoc, (rn_bd _ _ _ E) in B'. apply ok_inj in B'. now symmetry. }
  assert (Elu : mr_lu m' = mr_lu m). { rewrite (rn_lu _ _ _ E), (rn_lu _ _ _ E'), Ebd. reflexivity. }
  assert (EH : mr_H_tr m' = mr_H_tr m) by (rewrite (rn_H _ _ _ E), (rn_H _ _ _ E'); reflexivity).
  assert (Es : mr_Esol m' = mr_Esol m).
  { destruct (rn_sol _ _ _ E) as (ws & W & ->). destruct (rn_sol _ _ _ E') as (ws' & W' & ->).
    change (windowSolarArea (pa_structure (map_params Fin (set_absorption p x)))) with (windowSolarArea (pa_structure (map_params Fin p))) in W'. rewrite W in W'. apply ok_inj in W'. now subst ws'. }
  assert (Eg : mr_gains m' = mr_gains m). { rewrite (rn_gains _ _ _ E), (rn_gains _ _ _ E'), Elu, Eoc. reflexivity. }
  assert (Et : mr_temps m' = mr_temps m).
  { pose proof (rn_temps _ _ _ E) as B. pose proof (rn_temps _ _ _ E') as B'. cbv zeta in B, B'. rewrite Eoc, Ebd, EH, Es, Eg in B'.
    unfold interiorTemp in B, B'. change (bu_bem (pa_building (map_params Fin (set_absorption p x)))) with (bu_bem (pa_building (map_params Fin p))) in B'.
    destruct (bemAdjust (bu_bem (pa_building (map_params Fin p)))) as [adj| |]; [cbn [obind] in B, B'|discriminate B|discriminate B].
    apply ok_inj in B. apply ok_inj in B'. rewrite <- B, <- B'. reflexivity. }
  assert (Ev : mr_Hve_ht m' = mr_Hve_ht m /\ mr_Hve_cl m' = mr_Hve_cl m).
  { rewrite (rn_Hve_ht _ _ _ E), (rn_Hve_ht _ _ _ E'), (rn_Hve_cl _ _ _ E), (rn_Hve_cl _ _ _ E'), Eoc, Et. split; reflexivity. }
  assert (En : mr_needs m' = mr_needs m). { rewrite (rn_needs _ _ _ E), (rn_needs _ _ _ E'), Eoc, Et, EH, Es, Eg. destruct Ev as [-> ->]. reflexivity. }
  exists (perArea (st_floorArea (pa_structure (map_params Fin p))) (hv_gas_cl (mr_hvac m))). split; [exact X|].
  assert (Eh : hv_gas_cl (mr_hvac m') = hv_gas_cl (mr_hvac m)). { rewrite (rn_hvac _ _ _ E), (rn_hvac _ _ _ E'), En. reflexivity. }
  rewrite <- Eh. exact X'.
Qed.

(** *** Pumps *)
Lemma pump_fin p qh qc a b : pump (map_params Fin p) (map Fin qh) (map Fin qc) (Fin a) (Fin b) = map Fin (pump p qh qc a b).
Proof.
  unfold pump. cbn [map_params pa_heating pa_cooling pa_structure map_heating map_cooling map_structure ht_E_pumps cl_E_pumps ht_pumpControlReduction cl_pumpControlReduction st_floorArea].
  rewrite mega_fin, !scale_fin, !vsum_fin, !mul_fin, !vadd_fin, !vdiv_fin, !scale_fin, !vsum_fin, !divs_fin, !vadd_fin, !add_fin, !divs_fin, !scale_fin, !vsum_fin, !divs_fin, !(zn_fin 0), !eqb_fin.
  destruct (orb _ _); reflexivity.
Qed.
Definition pumpQ (p : params_t R) (e : R) (r : R) : R := e * (365 * 86400 / 1000000) * r * st_floorArea (pa_structure p).
Lemma mega_sum (e : R) : vsum (scale megasecondsInMonth e) = e * (365 * 86400 / 1000000).
Proof.
  rewrite vsum_R. unfold scale, megasecondsInMonth, Rsum. cbn [map fold_right]. ops. cbn [lit R_num]. unfold Rlit. rewrite ?zn_R. lra.
Qed.
Lemma Rsum_scale l (s : R) : Rsum (scale l s) = Rsum l * s.
Proof. induction l as [|a l IH]; [cbn; lra|]. change (Rsum (scale (a :: l) s)) with (a * s + Rsum (scale l s)). change (Rsum (a :: l)) with (a + Rsum l). rewrite IH. ring. Qed.
Lemma Rsum_div l (s : R) : Rsum (map (fun x => x / s) l) = Rsum l / s.
Proof. induction l as [|a l IH]; [cbn; lra|]. change (Rsum (map (fun x => x / s) (a :: l))) with (a / s + Rsum (map (fun x => x / s) l)). change (Rsum (a :: l)) with (a + Rsum l). rewrite IH. unfold Rdiv. ring. Qed.
Lemma pump_R p qh qc : length qh = length qc -> Rsum qh + Rsum qc <> 0 -> let Qh := pumpQ p (ht_E_pumps (pa_heating p)) (ht_pumpControlReduction (pa_heating p)) in
  let Qc := pumpQ p (cl_E_pumps (pa_cooling p)) (cl_pumpControlReduction (pa_cooling p)) in
  let v := pump p qh qc (Rsum qh) (Rsum qc) in
  (Qh <> 0 -> Qc <> 0 -> v = map (fun q => q / (Rsum qh + Rsum qc) * (Qh + Qc)) (vadd qh qc)) /\
  (Qh = 0 \/ Qc = 0 -> let sh := vdiv qh (vadd qh qc) in let sc := vdiv qc (vadd qh qc) in v = vadd (divs (scale sh Qh) (Rsum sh)) (divs (scale sc Qc) (Rsum sc))).
Proof.
  intros L T. cbv zeta. unfold pump. rewrite !mega_sum. cbn [nmul R_num]. fold (pumpQ p (ht_E_pumps (pa_heating p)) (ht_pumpControlReduction (pa_heating p))).
  fold (pumpQ p (cl_E_pumps (pa_cooling p)) (cl_pumpControlReduction (pa_cooling p))). set (Qh := pumpQ _ _ _). set (Qc := pumpQ p (cl_E_pumps _) _).
  rewrite !zn_R, !vsum_R. change (nadd (Rsum qh) (Rsum qc)) with (Rsum qh + Rsum qc). change (nadd Qh Qc) with (Qh + Qc). change (@neqb R _) with Reqb. split.
  - intros A B. rewrite (Reqb_false Qh 0 A), (Reqb_false Qc 0 B). cbn [orb].
    assert (U : Rsum (divs (vadd qh qc) (Rsum qh + Rsum qc)) = 1). { rewrite divs_R by exact T. rewrite Rsum_div, sum_vadd by exact L. field. exact T. }
    rewrite U, divs_R by lra. rewrite divs_R by exact T. unfold scale. rewrite !map_map. apply map_ext. intros q. ops. field. exact T.
  - intros [A|A]; rewrite (Reqb_true _ 0 A), ?orb_true_r; reflexivity.
Qed.
Lemma zero_prod p e r : 0 < st_floorArea (pa_structure p) -> pumpQ p e r = 0 <-> e * r = 0.
Proof.
  intros H. unfold pumpQ. split; intros E.
  - assert (X : e * (365 * 86400 / 1000000) * r * st_floorArea (pa_structure p) = e * r * ((365 * 86400 / 1000000) * st_floorArea (pa_structure p))) by ring.
    rewrite X in E. apply Rmult_integral in E. destruct E as [E|E]; [exact E|]. assert (0 < 365 * 86400 / 1000000 * st_floorArea (pa_structure p)) by (apply Rmult_lt_0_compat; lra). lra.
  - replace (e * (365 * 86400 / 1000000) * r * st_floorArea (pa_structure p)) with (e * r * ((365 * 86400 / 1000000) * st_floorArea (pa_structure p))) by ring. rewrite E. ring.
Qed.
Lemma pump_year_Q p : 0 < st_floorArea (pa_structure p) ->
  kWh_m2 p (pumpQ p (ht_E_pumps (pa_heating p)) (ht_pumpControlReduction (pa_heating p)) + pumpQ p (cl_E_pumps (pa_cooling p)) (cl_pumpControlReduction (pa_cooling p))) = pump_year p.
Proof. intros H. unfold kWh_m2, pumpQ, pump_year, MJ_per_kWh. field. lra. Qed.
Lemma kWh_sum p l : Rsum (map (kWh_m2 p) l) = kWh_m2 p (Rsum l).
Proof. induction l as [|a l IH]; [cbn; unfold kWh_m2, Rdiv; ring|]. change (Rsum (map (kWh_m2 p) (a :: l))) with (kWh_m2 p a + Rsum (map (kWh_m2 p) l)). rewrite IH. change (Rsum (a :: l)) with (a + Rsum l). unfold kWh_m2, Rdiv. ring. Qed.
Lemma pump_column p w m rows qh qc : 0 < st_floorArea (pa_structure p) -> monthlyAll (map_params Fin p) w = Ok m -> simulateMonthly (map_params Fin p) w = Ok rows ->
  ne_ht (mr_needs m) = map Fin qh -> ne_cl (mr_needs m) = map Fin qc ->
  is_series elec_pumps rows (map Fin (map (kWh_m2 p) (pump p qh qc (Rsum qh) (Rsum qc)))) /\ length qh = 12%nat /\ length qc = 12%nat.
Proof.
  intros A M SM H C. destruct (simulate_columns _ _ _ _ M SM) as (RU & _ & S). specialize (S elec_pumps _ eq_refl).
  change (st_floorArea (pa_structure (map_params Fin p))) with (Fin (st_floorArea (pa_structure p))) in *.
  destruct (needs_yr p w m qh qc RU H C) as (Y1 & Y2 & L1 & L2). rewrite (rn_pump _ _ _ RU), H, C, Y1, Y2, pump_fin in S.
  split; [|now split]. assert (E : perArea (Fin (st_floorArea (pa_structure p))) (map Fin (pump p qh qc (Rsum qh) (Rsum qc))) = map Fin (map (kWh_m2 p) (pump p qh qc (Rsum qh) (Rsum qc)))); [|rewrite E in S; exact S].
  rewrite map_map. exact (perArea_map p (fun x => x) _ A).
Qed.
Lemma C31_l p w m rows qh qc : 0 < st_floorArea (pa_structure p) -> monthlyAll (map_params Fin p) w = Ok m -> simulateMonthly (map_params Fin p) w = Ok rows ->
  ne_ht (mr_needs m) = map Fin qh -> ne_cl (mr_needs m) = map Fin qc -> Rsum qh + Rsum qc <> 0 ->
  ht_E_pumps (pa_heating p) * ht_pumpControlReduction (pa_heating p) <> 0 -> cl_E_pumps (pa_cooling p) * cl_pumpControlReduction (pa_cooling p) <> 0 ->
  exists v, is_series elec_pumps rows (map Fin v) /\ Rsum v = pump_year p /\
    forall i a b, nth_error qh i = Some a -> nth_error qc i = Some b -> nth_error v i = Some ((a + b) / (Rsum qh + Rsum qc) * pump_year p).
Proof.
  intros A M SM H C T N1 N2. destruct (pump_column p w m rows qh qc A M SM H C) as (S & L1 & L2).
  exists (map (kWh_m2 p) (pump p qh qc (Rsum qh) (Rsum qc))). split; [exact S|].
  destruct (pump_R p qh qc ltac:(congruence) T) as [P _]. cbv zeta in P. rewrite P by (rewrite zero_prod by exact A; assumption). split.
  - rewrite kWh_sum, <- (pump_year_Q p A). set (Q := pumpQ p (ht_E_pumps (pa_heating p)) _ + pumpQ p (cl_E_pumps (pa_cooling p)) _). clearbody Q. f_equal. rewrite <- (map_map (fun q => q / (Rsum qh + Rsum qc)) (fun q => q * Q)).
    change (map (fun q => q * Q) ?l) with (scale l Q). rewrite Rsum_scale, Rsum_div, sum_vadd by congruence. field. exact T.
  - intros i a b X Y. rewrite !nth_error_map. unfold vadd. rewrite (nth_zipw _ _ _ _ _ _ X Y). cbn [option_map]. f_equal. rewrite <- (pump_year_Q p A). ops. unfold kWh_m2. field. pose proof kWh_pos. repeat split; lra.
Qed.
Lemma sum_share l (Q : R) : Rsum l <> 0 -> Rsum (divs (scale l Q) (Rsum l)) = Q.
Proof. intros H. rewrite divs_R by exact H. rewrite Rsum_div, Rsum_scale. field. exact H. Qed.
Lemma C31_one_l p w m rows qh qc : 0 < st_floorArea (pa_structure p) -> monthlyAll (map_params Fin p) w = Ok m -> simulateMonthly (map_params Fin p) w = Ok rows ->
  ne_ht (mr_needs m) = map Fin qh -> ne_cl (mr_needs m) = map Fin qc -> Rsum qh + Rsum qc <> 0 -> (forall q, In q (vadd qh qc) -> q <> 0) ->
  ht_E_pumps (pa_heating p) * ht_pumpControlReduction (pa_heating p) = 0 \/ cl_E_pumps (pa_cooling p) * cl_pumpControlReduction (pa_cooling p) = 0 ->
  Rsum (map (fun q => fst q / (fst q + snd q)) (combine qh qc)) <> 0 -> Rsum (map (fun q => snd q / (fst q + snd q)) (combine qh qc)) <> 0 ->
  exists v, is_series elec_pumps rows (map Fin v) /\ Rsum v = pump_year p.
Proof.
  intros A M SM H C T NZ N N1 N2. destruct (pump_column p w m rows qh qc A M SM H C) as (S & L1 & L2).
  exists (map (kWh_m2 p) (pump p qh qc (Rsum qh) (Rsum qc))). split; [exact S|].
  destruct (pump_R p qh qc ltac:(congruence) T) as [_ P]. cbv zeta in P. rewrite P by (rewrite !zero_prod by exact A; exact N).
  assert (E1 : vdiv qh (vadd qh qc) = map (fun q => fst q / (fst q + snd q)) (combine qh qc)).
  { assert (L : length qh = length qc) by congruence. clear - NZ L. revert qc NZ L. induction qh as [|a l IH]; intros [|b k] NZ L; try discriminate L; [reflexivity|].
    unfold vdiv, vadd in *. cbn [zipw combine map fst snd]. rewrite IH by (intros; try (apply NZ; now right); now injection L). rewrite sdiv_R by (apply NZ; now left). reflexivity. }
  assert (E2 : vdiv qc (vadd qh qc) = map (fun q => snd q / (fst q + snd q)) (combine qh qc)).
  { assert (L : length qh = length qc) by congruence. clear - NZ L. revert qc NZ L. induction qh as [|a l IH]; intros [|b k] NZ L; try discriminate L; [reflexivity|].
    unfold vdiv, vadd in *. cbn [zipw combine map fst snd]. rewrite IH by (intros; try (apply NZ; now right); now injection L). rewrite sdiv_R by (apply NZ; now left). reflexivity. }
  rewrite E1, E2, kWh_sum, sum_vadd. 2:{ unfold divs, scale. now rewrite !map_length. }
  rewrite !sum_share by assumption. now apply pump_year_Q.
Qed.
