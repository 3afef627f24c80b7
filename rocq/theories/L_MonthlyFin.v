(** On finite data the monthly engine computes finite temperatures, gains and losses, those of exact arithmetic. *)
From Coq Require Import Reals Lra Psatz ZArith List Bool Lia.
From Verif Require Import Base Num Xr M_Params M_Monthly M_Map L_Xr L_HourlyShape L_HourlyFin2 L_Office S_Calendar S_Schedule S_Results S_Monthly
  S_MonthlySound S_Physical L_Monthly L_Monthly2 L_Monthly3 L_Monthly4 L_Monthly5 E_SmallOffice E_Monthly.
Import ListNotations.
Open Scope R_scope.

Definition fmap {A B} (f : A -> B) (o : outcome A) : outcome B := match o with Ok a => Ok (f a) | Throw e => Throw e | UB => UB end.
Lemma omap_fmap {A B C D} (f : C -> outcome D) (g : A -> outcome B) (i : A -> C) (j : B -> D) l :
  (forall a, In a l -> f (i a) = fmap j (g a)) -> omap f (map i l) = fmap (map j) (omap g l).
Proof.
  induction l as [|a l IH]; intros H; cbn [map omap]; [reflexivity|]. rewrite (H a (or_introl eq_refl)), IH by (intros b I; apply H; now right).
  destruct (g a); cbn [fmap obind]; try reflexivity. destruct (omap g l); reflexivity.
Qed.
(** zipw on other kinds of elements. *)
Lemma zipw_map {A B C A' B' C'} (i : A -> A') (j : B -> B') (k : C -> C') f g : (forall a b, f (i a) (j b) = k (g a b)) ->
  forall a b, zipw f (map i a) (map j b) = map k (zipw g a b).
Proof. intros H. induction a as [|x a IH]; intros [|y b]; cbn; try reflexivity. now rewrite H, IH. Qed.
Lemma zipw_map_in {A B C A' B' C'} (i : A -> A') (j : B -> B') (k : C -> C') f g : forall a b, (forall x y, In x a -> In y b -> f (i x) (j y) = k (g x y)) ->
  zipw f (map i a) (map j b) = map k (zipw g a b).
Proof.
  induction a as [|x a IH]; intros [|y b] H; cbn; try reflexivity. rewrite H by (now left). rewrite IH; [reflexivity|]. intros u v I J. apply H; now right.
Qed.

(** *** Schedule *)
Definition fin_oc (o : occupancy R) : occupancy xr :=
  {| oc_wkOcc := map Fin (oc_wkOcc o); oc_wkUnocc := map Fin (oc_wkUnocc o); oc_weOcc := map Fin (oc_weOcc o); oc_weUnocc := map Fin (oc_weUnocc o);
     oc_clockOcc := map Fin (oc_clockOcc o); oc_clockUnocc := map Fin (oc_clockUnocc o); oc_wk_day := Fin (oc_wk_day o);
     oc_hoursUnocc := Fin (oc_hoursUnocc o); oc_hoursOcc := Fin (oc_hoursOcc o); oc_wk_nt := Fin (oc_wk_nt o); oc_wke_tot := Fin (oc_wke_tot o) |}.
Lemma oc_fin po : scheduleAndOccupancy (map_population Fin po) = fin_oc (scheduleAndOccupancy po).
Proof.
  rewrite schedule_fin. unfold scheduleAndOccupancy, fin_oc, hoursInWeek, fWkDay, fWkNt, fWkeTot, fWkeDay, fWkeNt.
  cbn [oc_wkOcc oc_wkUnocc oc_weOcc oc_weUnocc oc_clockOcc oc_clockUnocc oc_wk_day oc_hoursUnocc oc_hoursOcc oc_wk_nt oc_wke_tot].
  rewrite !zn_R. reflexivity.
Qed.
Lemma day_length_eq po : hoursPerDay po = day_length po.
Proof. unfold hoursPerDay, day_length. rewrite !zn_R. ops. unfold Rltb. destruct (Rlt_dec _ 0); reflexivity. Qed.
Lemma week_days_eq po : daysPerWeek po = week_days po.
Proof. unfold daysPerWeek, week_days. rewrite !zn_R. ops. unfold Rltb. destruct (Rlt_dec _ 0); reflexivity. Qed.

(** *** Means over a mask *)
Lemma mask_sum h : 0 < h -> vsum (clockMask h 1 0) <> 0 /\ vsum (clockMask h 0 1) <> 0.
Proof.
  intros H. assert (G : forall (f : Z -> R) l z, (forall x, 0 <= f x) -> In z l -> f z <= vsum (map f l)).
  { intros f l z P I. unfold vsum. rewrite accumulate_R. induction l as [|x l IH]; [destruct I|]. cbn [map fold_left]. rewrite fold_add_acc.
    assert (0 <= fold_left Rplus (map f l) 0) by (apply fold_add_nonneg; intros y J; apply in_map_iff in J; destruct J as (u & <- & _); apply P).
    destruct I as [->|I]; [lra|]. specialize (IH I). pose proof (P x). lra. }
  assert (P : forall a b : R, 0 <= a -> 0 <= b -> forall z, 0 <= (if (@nle R _ (zn 0) (zn z - zn 7)%num && nlt (zn z - zn 7)%num h)%bool then a else b)) by (intros a b A B z; destruct (_ && _)%bool; assumption).
  split.
  - specialize (G (fun z => if (@nle R _ (zn 0) (zn z - zn 7)%num && nlt (zn z - zn 7)%num h)%bool then 1 else 0) (zrange 0 24) 7%Z). 
    unfold clockMask. apply Rgt_not_eq, Rlt_le_trans with 1; [lra|]. eapply Rle_trans; [|apply G]; [|apply P; lra|vm_compute; tauto].
    cbv beta. unfold nle, zn. cbn [lit R_num nlt neqb nsub]. unfold Rlit. repeat match goal with |- context[Rltb ?a ?b] => destruct (Rltb_spec a b) | |- context[Reqb ?a ?b] => destruct (Reqb_spec a b) end; cbn [andb orb]; lra.
  - specialize (G (fun z => if (@nle R _ (zn 0) (zn z - zn 7)%num && nlt (zn z - zn 7)%num h)%bool then 0 else 1) (zrange 0 24) 0%Z). 
    unfold clockMask. apply Rgt_not_eq, Rlt_le_trans with 1; [lra|]. eapply Rle_trans; [|apply G]; [|apply P; lra|vm_compute; tauto].
    cbv beta. unfold nle, zn. cbn [lit R_num nlt neqb nsub]. unfold Rlit. repeat match goal with |- context[Rltb ?a ?b] => destruct (Rltb_spec a b) | |- context[Reqb ?a ?b] => destruct (Reqb_spec a b) end; cbn [andb orb]; lra.
Qed.
Lemma maskedMean_fin m v : vsum v <> 0 -> maskedMean (map (map Fin) m) (map Fin v) = map Fin (maskedMean m v).
Proof.
  intros H. unfold maskedMean, rowProd. rewrite !map_map. apply map_ext. intros row. rewrite vmul_fin, accumulate_fin, vsum_fin. now apply div_fin'.
Qed.

(** *** Sun and solar fractions *)
Lemma firstLit_fin row : forall n, firstLit n (map Fin row) = firstLit n row.
Proof. induction row as [|x row IH]; intros n; cbn [map firstLit]; [reflexivity|]. rewrite zn_fin, eqb_fin, IH. reflexivity. Qed.
Lemma lastLit_fin row : forall n, lastLit n (map Fin row) = lastLit n row.
Proof. induction row as [|x row IH]; intros n; cbn [map lastLit]; [reflexivity|]. rewrite zn_fin, eqb_fin, IH. reflexivity. Qed.
Lemma fracSunDown_fin row : fracSunDown (map Fin row) = fmap Fin (fracSunDown row).
Proof.
  unfold fracSunDown. rewrite firstLit_fin, lastLit_fin. destruct (firstLit 0 row), (lastLit 0 row); try reflexivity. cbn [fmap]. f_equal.
  rewrite !zn_fin, sub_fin, add_fin, div_fin', sub_fin by (rewrite zn_R; lra). reflexivity.
Qed.
Definition fin_bd (b : breakdown R) : breakdown xr :=
  {| bd_hrsSunDown := map Fin (bd_hrsSunDown b); bd_wk_nt := map Fin (bd_wk_nt b); bd_wke_day := map Fin (bd_wke_day b); bd_wke_nt := map Fin (bd_wke_nt b);
     bd_Tnt := map Fin (bd_Tnt b); bd_Tday := map Fin (bd_Tday b) |}.
Lemma bd_fin oc w : vsum (oc_clockOcc oc) <> 0 -> vsum (oc_clockUnocc oc) <> 0 ->
  solarRadiationBreakdown (fin_oc oc) (fin_weather w) = fmap fin_bd (solarRadiationBreakdown oc w).
Proof.
  intros H1 H2. unfold solarRadiationBreakdown, fin_oc, fin_weather.
  cbn [oc_wkOcc oc_wkUnocc oc_weOcc oc_weUnocc oc_clockOcc oc_clockUnocc mw_mhdbt mw_mhEgh]. cbv zeta.
  rewrite (omap_fmap fracSunDown fracSunDown (map Fin) Fin) by (intros; apply fracSunDown_fin). rewrite !maskedMean_fin by assumption.
  repeat progress rewrite ?vmul_fin, ?vadd_fin, ?vdiv_fin. destruct (omap fracSunDown (mw_mhEgh w)) as [d| |]; [|reflexivity|reflexivity].
  cbn [fmap obind]. rewrite hours_fin, vmul_fin. reflexivity.
Qed.

(** *** Lighting *)
Definition fin_lu (l : lightuse R) : lightuse xr :=
  {| lu_occ := Fin (lu_occ l); lu_unocc := Fin (lu_unocc l); lu_tot := Fin (lu_tot l); lu_month := map Fin (lu_month l); lu_ext := map Fin (lu_ext l) |}.
Lemma lu_fin p hrs : lightingEnergyUse (map_params Fin p) (map Fin hrs) = fin_lu (lightingEnergyUse p hrs).
Proof.
  unfold lightingEnergyUse, fin_lu. cbn [lu_occ lu_unocc lu_tot lu_month lu_ext]. rewrite lightDay_fin, lightNight_fin. unfold lightHoursD, lightHoursN.
  cbn [map_params pa_structure pa_lighting pa_building pa_population].
  cbn [map_structure map_lighting map_building st_floorArea li_densityOcc li_densityUnocc li_exteriorEnergy bu_constantIllumination bu_lightingOccupancySensor li_dimmingFraction].
  unfold hoursInYear. rewrite (zn_fin 8760), (zn_fin 1000), fraction_fin. repeat progress rewrite ?mul_fin, ?add_fin, ?sub_fin.
  rewrite !div_fin' by (rewrite zn_R; lra). rewrite add_fin, !scale_fin. reflexivity.
Qed.

(** *** Envelope and sun on the building *)
Lemma UA_fin s : envelopeUA (map_structure Fin s) = Fin (envelopeUA s).
Proof.
  unfold envelopeUA. cbn [map_structure st_wallArea st_wallU st_windowArea st_windowU]. rewrite !vmul_fin, vadd_fin, vsum_fin, zn_fin, !add_fin. reflexivity.
Qed.
Lemma sdfFactor_fin x : sdfFactor (Fin x) = fmap Fin (sdfFactor x).
Proof.
  unfold sdfFactor. change (@ntrunc xr _ (Fin x)) with (@ntrunc R _ x). destruct (ntrunc x) as [z|]; [|reflexivity].
  destruct z as [|[[q|q|]|[q|q|]|]|]; reflexivity.
Qed.
Lemma windowSolar_fin s : windowSolarArea (map_structure Fin s) = fmap (map Fin) (windowSolarArea s).
Proof.
  unfold windowSolarArea. cbn [map_structure st_windowSDF st_windowSHGC st_win_F_W st_win_ff st_windowArea].
  rewrite (omap_fmap sdfFactor sdfFactor Fin Fin) by (intros; apply sdfFactor_fin). destruct (omap sdfFactor (st_windowSDF s)) as [d| |]; [|reflexivity|reflexivity].
  cbn [fmap obind]. f_equal. rewrite zn_fin, sub_fin, !repeat_fin, scale_fin, !vmul_fin. reflexivity.
Qed.
Lemma solarGain_fin s ws w : solarHeatGain (map_structure Fin s) (map Fin ws) (fin_weather w) = map Fin (solarHeatGain s ws w).
Proof.
  unfold solarHeatGain.
  assert (I : irradiance (fin_weather w) = map (map Fin) (irradiance w)).
  { unfold irradiance, fin_weather. cbn [mw_msolar mw_mEgh]. apply zipw_map. intros a b. now rewrite map_app. }
  assert (W : forall row, windowGain (map_structure Fin s) (map Fin ws) (map Fin row) = Fin (windowGain s ws row)).
  { intros row. unfold windowGain. cbn [map_structure st_windowSCF]. rewrite zn_fin, repeat_fin, !vmul_fin, vsum_fin. reflexivity. }
  assert (L : forall row, wallGain (map_structure Fin s) (map Fin row) = Fin (wallGain s row)).
  { intros row. unfold wallGain, wallSolarArea, skyRadiation. cbn [map_structure st_wallAbsorption st_R_sc_ext st_wallU st_wallArea st_wallEmissivity].
    change (@formFactors xr _) with (map Fin (@formFactors R _)). rewrite !zn_fin, !repeat_fin, !scale_fin, !vmul_fin, vsub_fin, vsum_fin. reflexivity. }
  rewrite I, !map_map. rewrite (map_ext _ _ W), (map_ext _ _ L). rewrite <- (map_map (windowGain s ws) Fin), <- (map_map (wallGain s) Fin), vadd_fin, mega_fin, vmul_fin. reflexivity.
Qed.

(** *** Internal gains *)
Definition fin_gains (g : gains R) : gains xr := {| ga_int := Fin (ga_int g); ga_plug := Fin (ga_plug g); ga_illum := Fin (ga_illum g); ga_unocc := Fin (ga_unocc g) |}.
Lemma gains_fin p wk lu : st_floorArea (pa_structure p) <> 0 -> po_densityOcc (pa_population p) <> 0 -> po_densityUnocc (pa_population p) <> 0 -> wk <> 1 ->
  heatGainsAndLosses (map_params Fin p) (Fin wk) (fin_lu lu) = fin_gains (heatGainsAndLosses p wk lu).
Proof.
  intros H1 H2 H3 H4. unfold heatGainsAndLosses, fin_gains, hoursInYear. cbn [ga_int ga_plug ga_illum ga_unocc fin_lu lu_unocc lu_tot].
  cbn [map_params pa_structure pa_building pa_population map_structure map_building map_population st_floorArea
       po_heatGainPerPerson po_densityOcc po_densityUnocc bu_elecApplianceOcc bu_gasApplianceOcc bu_elecApplianceUnocc bu_gasApplianceUnocc].
  rewrite !zn_fin, !sub_fin. rewrite !(div_fin' _ (po_densityOcc _)) by assumption. rewrite !(div_fin' _ (po_densityUnocc _)) by assumption.
  rewrite !(div_fin' _ (st_floorArea _)) by assumption. rewrite !(div_fin' _ (zn 8760)) by (rewrite zn_R; lra).
  rewrite (div_fin' _ (zn 1 - wk)%num) by (rewrite zn_R; ops; lra). repeat progress rewrite ?mul_fin, ?add_fin. reflexivity.
Qed.
Lemma internal_fin s g : internalHeatGain (map_structure Fin s) (fin_gains g) = Fin (internalHeatGain s g).
Proof. unfold internalHeatGain. cbn [map_structure st_floorArea fin_gains ga_int ga_plug ga_illum]. rewrite !mul_fin, !add_fin. reflexivity. Qed.
Lemma unocc_fin s phi ms fr E : unoccupiedHeatGain (map_structure Fin s) (Fin phi) (map Fin ms) (map Fin fr) (map Fin E) = map Fin (unoccupiedHeatGain s phi ms fr E).
Proof. unfold unoccupiedHeatGain. cbn [map_structure st_floorArea]. rewrite mul_fin, scale_fin, vmul_fin, vadd_fin, vdiv_fin. reflexivity. Qed.

(** *** Temperatures *)
Lemma bem_fin x : bemAdjust (Fin x) = fmap Fin (bemAdjust x).
Proof.
  unfold bemAdjust. change (@ntrunc xr _ (Fin x)) with (@ntrunc R _ x). destruct (ntrunc x) as [z|]; [|reflexivity].
  destruct z as [|[[q|q|]|[q|q|]|]|]; reflexivity.
Qed.
Definition fin_period (q : period R) : period xr := mkPeriod (Fin (pe_t q)) (Fin (pe_Te q)) (Fin (pe_dT q)).
Lemma tau_fin p H : H <> 0 -> timeConstant (map_params Fin p) (Fin H) = Fin (timeConstant p H).
Proof.
  intros HH. unfold timeConstant. cbn [map_params pa_structure map_structure st_interiorHeatCapacity st_floorArea st_wallHeatCapacity st_wallArea].
  rewrite vsum_fin, !mul_fin, add_fin, zn_fin, div_fin' by exact HH. rewrite div_fin' by (rewrite zn_R; lra). reflexivity.
Qed.
Lemma decayEnd_fin tau s q : tau <> 0 -> decayEnd (Fin tau) (Fin s) (fin_period q) = Fin (decayEnd tau s q).
Proof.
  intros H. unfold decayEnd. cbn [fin_period pe_t pe_Te pe_dT]. rewrite zn_fin, opp_fin, mul_fin, div_fin', exp_fin by exact H. rewrite !sub_fin, mul_fin, !add_fin. reflexivity.
Qed.
Lemma decayMean_fin tau s q : tau <> 0 -> pe_t q <> 0 -> decayMean (Fin tau) (Fin s) (fin_period q) = Fin (decayMean tau s q).
Proof.
  intros H H'. unfold decayMean. cbn [fin_period pe_t pe_Te pe_dT]. rewrite zn_fin, opp_fin, mul_fin, !div_fin', exp_fin by assumption.
  rewrite !sub_fin, !mul_fin, !add_fin. reflexivity.
Qed.
Lemma chain_fin tau qs : tau <> 0 -> forall s, decayChain (Fin tau) (Fin s) (map fin_period qs) = map Fin (decayChain tau s qs).
Proof. intros H. induction qs as [|q qs IH]; intros s; cbn [map decayChain]; [reflexivity|]. rewrite decayEnd_fin, IH by exact H. reflexivity. Qed.
Lemma heatingPeriods_fin tau c u qs : tau <> 0 -> (forall q, In q qs -> pe_t q <> 0) ->
  heatingPeriods (Fin tau) (Fin c) (Fin u) (map fin_period qs) = map Fin (heatingPeriods tau c u qs).
Proof.
  intros H Q. unfold heatingPeriods. rewrite firstn_map, chain_fin by exact H. rewrite map_map.
  rewrite (map_ext _ (fun x => Fin (nmax x u))) by (intros; apply max_fin). rewrite <- (map_map (fun x => nmax x u) Fin).
  change (Fin c :: ?x) with (map Fin [c] ++ x). rewrite <- map_app. apply zipw_map_in. intros x q _ I. rewrite decayMean_fin by auto. apply max_fin.
Qed.
Lemma coolingPeriods_fin tau hc c u qs : tau <> 0 -> (forall q, In q qs -> pe_t q <> 0) ->
  coolingPeriods (Fin tau) (Fin hc) (Fin c) (Fin u) (map fin_period qs) = map Fin (coolingPeriods tau hc c u qs).
Proof.
  intros H Q. unfold coolingPeriods. rewrite firstn_map, chain_fin by exact H. rewrite map_map, min_fin.
  rewrite (map_ext _ (fun x => Fin (nmax x u))) by (intros; apply max_fin). rewrite <- (map_map (fun x => nmax x u) Fin).
  change (Fin ?c :: ?x) with (map Fin [c] ++ x). rewrite <- map_app. apply zipw_map_in. intros x q _ I. rewrite decayMean_fin by auto. apply max_fin.
Qed.
Lemma weekMean_fin oc c f tb : weekMean (fin_oc oc) (Fin c) (Fin f) (map Fin tb) = Fin (weekMean oc c f tb).
Proof.
  unfold weekMean. cbn [fin_oc oc_wk_day oc_wk_nt oc_wke_tot]. rewrite zn_fin, eqb_fin, accumulate_fin, (zn_fin 5), div_fin', map_nth by (rewrite zn_R; lra).
  rewrite !if_fin, !mul_fin, !add_fin, min_fin. reflexivity.
Qed.
Definition fin_temps (t : temps R) : temps xr := {| te_h := map Fin (te_h t); te_c := map Fin (te_c t); te_tau := Fin (te_tau t) |}.
Lemma periods_fin oc H a b c d e : H <> 0 -> periods (fin_oc oc) (Fin H) (Fin a) (Fin b) (Fin c) (Fin d) (Fin e) = map fin_period (periods oc H a b c d e).
Proof. intros HH. unfold periods. cbn [fin_oc oc_hoursUnocc oc_hoursOcc]. rewrite !div_fin' by exact HH. reflexivity. Qed.
Definition zip5 {T} (f : T -> T -> T -> T -> T -> list (period T)) (a b c d e : list T) : list (list (period T)) :=
  zipw (fun f x => f x) (zipw (fun f x => f x) (zipw (fun f x => f x) (zipw f a b) c) d) e.
Lemma zip5_fin f g : (forall a b c d e, f (Fin a) (Fin b) (Fin c) (Fin d) (Fin e) = map fin_period (g a b c d e)) ->
  forall a b c d e, zip5 f (map Fin a) (map Fin b) (map Fin c) (map Fin d) (map Fin e) = map (map fin_period) (zip5 g a b c d e).
Proof.
  intros H. unfold zip5. induction a as [|xa a IH]; intros [|xb b] [|xc c] [|xd d] [|xe e]; cbn [map zipw]; try reflexivity. now rewrite H, IH.
Qed.
Lemma zip5_in {T} (f : T -> T -> T -> T -> T -> list (period T)) : forall a b c d e q, In q (zip5 f a b c d e) -> exists xa xb xc xd xe, q = f xa xb xc xd xe.
Proof.
  unfold zip5. induction a as [|xa a IH]; intros [|xb b] [|xc c] [|xd d] [|xe e] q I; cbn [zipw] in I; try (destruct I; fail).
  destruct I as [<-|I]; eauto 6.
Qed.
Lemma temps_fin p oc bd H a b c : let Ht := H + ve_H_ve (pa_ventilation p) in
  Ht <> 0 -> timeConstant p Ht <> 0 -> oc_hoursUnocc oc <> 0 -> oc_hoursOcc oc <> 0 ->
  interiorTemp (map_params Fin p) (fin_oc oc) (fin_bd bd) (Fin H) (map Fin a) (map Fin b) (map Fin c) = fmap fin_temps (interiorTemp p oc bd H a b c).
Proof.
  intros Ht HH HT H1 H2. unfold interiorTemp. cbn [map_params pa_heating pa_cooling pa_building pa_ventilation map_heating map_cooling map_building map_ventilation
    bu_bem ht_tempOcc ht_tempUnocc ht_T_ctrl_flag cl_tempOcc cl_tempUnocc cl_T_ctrl_flag ve_H_ve].
  rewrite bem_fin. destruct (bemAdjust (bu_bem (pa_building p))) as [adj| |]; [|reflexivity|reflexivity]. cbn [fmap obind].
  rewrite sub_fin, !add_fin. change (nadd H (ve_H_ve (pa_ventilation p))) with Ht. change (map_params Fin p) with (map_params Fin p).
  cbv zeta. fold (@zip5 xr). fold (@zip5 R). 
  match goal with |- Ok ?x = Ok ?y => assert (x = y) as E; [|now rewrite E] end. unfold fin_temps. cbn [te_h te_c te_tau fin_bd bd_Tnt bd_Tday].
  rewrite tau_fin by exact HH.
  change (zipw (fun f x => f x) (zipw (fun f x => f x) (zipw (fun f x => f x) (zipw (periods (fin_oc oc) (Fin Ht)) (map Fin (bd_Tnt bd)) (map Fin (bd_Tday bd))) (map Fin a)) (map Fin b)) (map Fin c))
    with (zip5 (periods (fin_oc oc) (Fin Ht)) (map Fin (bd_Tnt bd)) (map Fin (bd_Tday bd)) (map Fin a) (map Fin b) (map Fin c)).
  change (zipw (fun f x => f x) (zipw (fun f x => f x) (zipw (fun f x => f x) (zipw (periods oc Ht) (bd_Tnt bd) (bd_Tday bd)) a) b) c)
    with (zip5 (periods oc Ht) (bd_Tnt bd) (bd_Tday bd) a b c).
  rewrite (zip5_fin _ (periods oc Ht)) by (intros; now apply periods_fin). set (qs := zip5 _ _ _ _ _ _).
  assert (Q : forall l, In l qs -> forall q, In q l -> pe_t q <> 0).
  { intros l I q J. apply zip5_in in I. destruct I as (xa & xb & xc & xd & xe & ->). unfold periods in J. repeat (destruct J as [<-|J]; [assumption|]). destruct J. }
  rewrite !map_map. f_equal; [apply map_ext_in; intros l I..].
  - rewrite heatingPeriods_fin by (eauto). apply weekMean_fin.
  - rewrite coolingPeriods_fin by (eauto). apply weekMean_fin.
Qed.
