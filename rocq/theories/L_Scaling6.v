(** Heating and cooling energy of the monthly engine and the efficiency of the plant. *)
From Coq Require Import Reals Lra Psatz String List ZArith Lia Bool.
From Verif Require Import Base Num Xr M_Params M_UserModel M_Hourly M_Monthly S_Monthly S_Calendar S_Loading S_Results S_Inputs S_Scaling
  L_Xr L_Calendar L_HourlyShape L_HourlyOut L_Monthly3 L_Inputs L_Inputs2 L_Scaling L_Scaling3 L_Scaling4 L_Monthly4.
Import ListNotations.
Open Scope R_scope.

Lemma ratio_pos e e' : 0 <= e -> 0 <= e' -> 0 < efficiency_ratio e e'.
Proof. intros. pose proof Rdblmin_pos. unfold efficiency_ratio. apply Rdiv_lt_0_compat; lra. Qed.
Lemma ratio_divs v e e' : 0 <= e -> 0 <= e' ->
  divs v (nadd (Fin e') ndblmin) = map (tm (efficiency_ratio e e')) (divs v (nadd (Fin e) ndblmin)).
Proof.
  intros H H'. pose proof (ratio_pos e e' H H') as P. pose proof Rdblmin_pos as D. pose proof (Rinv_0_lt_compat _ P) as I.
  assert (E : nadd (Fin e') ndblmin = tm (/ efficiency_ratio e e') (nadd (Fin e) ndblmin)).
  { unfold tm, efficiency_ratio. cbn. f_equal. field. lra. }
  rewrite E, (v_divs_inv _ I). { rewrite Rinv_inv. reflexivity. }
  apply nz_of. cbn. intros X. injection X. lra.
Qed.
Lemma vadd_tm f a b : vadd (map (tm f) a) (map (tm f) b) = map (tm f) (vadd a b).
Proof. unfold vadd. revert b. induction a as [|x a IH]; intros [|y b]; try reflexivity. cbn [map zipw]. rewrite IH. f_equal. exact (tm_add f x y). Qed.
Lemma nothing_lost f s a b : a * b <> 0 -> divs (scale (all12 (zn 0)) (nsub (zn 1) (Fin s))) (nmul (Fin a) (Fin b)) =
  map (tm f) (divs (scale (all12 (zn 0)) (nsub (zn 1) (Fin s))) (nmul (Fin a) (Fin b))).
Proof.
  intros N. unfold divs, sdiv.
  assert (Z : neqb (nmul (Fin a) (Fin b)) (zn 0) = false). { apply nz_of. cbn. intros X. injection X. exact N. }
  rewrite Z. rewrite (zn_fin 1), zn0. unfold scale, all12. rewrite !map_map. apply map_ext_in. intros x Ix. apply repeat_spec in Ix. subst x.
  unfold tm. cbn. destruct (Req_EM_T (a * b) 0); [contradiction|]. cbn. f_equal. field. split; intros ->; apply N; ring.
Qed.
Lemma perArea_tm f A v : 0 < f -> nz A -> perArea A (map (tm f) v) = map (tm f) (perArea A v).
Proof. intros Hf N. unfold perArea. rewrite (v_divs f Hf _ _ N), (v_divs f Hf _ _ kWh2MJ_nz). reflexivity. Qed.

Section Plant.
Variables (u u' : building_model xr) (w : mweather xr) (m m' : mresult xr).
Hypothesis (R1 : run (bm_params u) w m) (R' : run (bm_params u') w m').
Hypothesis F : nonzero_parameter "floorarea" u.
Lemma value_of key x v p : has_value key x v -> number_of key = Some p -> p v = Fin x.
Proof. intros H E. apply H, key_number, E. Qed.
Lemma area_nz : nz (st_floorArea (pa_structure (bm_params u))).
Proof. apply nz_of, (F (fun u => st_floorArea (pa_structure (bm_params u)))), key_number. reflexivity. Qed.
Lemma zero_one : neqb (@zn xr _ 0) (zn 1) = false.
Proof. rewrite (zn_fin 1), zn0, eqb_fin. apply Reqb_false. rewrite zn_R. lra. Qed.
Lemma heating_times e e' : 0 <= e -> 0 <= e' -> has_value "heatingsystemefficiency" e u -> has_value "heatingsystemefficiency" e' u' ->
  same_parameters (without ["heatingsystemefficiency"%string] monthly_heating_inputs) u u' ->
  perArea (st_floorArea (pa_structure (bm_params u'))) (hv_elec_ht (mr_hvac m')) =
  map (tm (efficiency_ratio e e')) (perArea (st_floorArea (pa_structure (bm_params u))) (hv_elec_ht (mr_hvac m))).
Proof.
  intros He He' V V' S0. pose proof (same_incl monthly_need_inputs _ _ _ S0 eq_refl) as S. pose proof (ratio_pos _ _ He He') as Hf.
  destruct (needs_same _ _ _ _ _ S R1 R') as (E1 & E2 & E3 & E4 & _).
  rewrite (rn_hvac _ _ _ R'), (rn_hvac _ _ _ R1), E1, E2, E3, E4. cbn [hvac hv_elec_ht]. unfold distHt.
  pose proof (value_of _ _ _ _ V eq_refl) as K1. pose proof (value_of _ _ _ _ V' eq_refl) as K2.
  pose proof (key_same _ "floorarea" u u' _ S0 eq_refl eq_refl) as K3. pose proof (key_same _ "dh_yesno" u u' _ S0 eq_refl eq_refl) as K4.
  pose proof (key_same _ "hvacheatinglossfactor" u u' _ S0 eq_refl eq_refl) as K5. pose proof (key_same _ "hvacwastefactor" u u' _ S0 eq_refl eq_refl) as K6.
  pose proof (word_same _ "heatingfueltype" u u' _ S0 eq_refl eq_refl) as K7.
  cbn [snd fst] in K1, K2, K3, K4, K5, K6, K7. rewrite K1, K2, K3, K4, K5, K6, K7, (ratio_divs _ _ _ He He').
  rewrite <- (perArea_tm _ _ _ Hf area_nz). f_equal.
  destruct (neqb _ _); [|apply v_zero]. destruct (neqb _ _); [apply v_zero|reflexivity].
Qed.
Lemma gas_times e e' : 0 <= e -> 0 <= e' -> has_value "heatingsystemefficiency" e u -> has_value "heatingsystemefficiency" e' u' ->
  own_plant "dh_yesno" "frac_dh_free" "eta_dh_sys" "eta_dh_network" u ->
  same_parameters (without ["heatingsystemefficiency"%string] monthly_gas_heating_inputs) u u' ->
  perArea (st_floorArea (pa_structure (bm_params u'))) (hv_gas_ht (mr_hvac m')) =
  map (tm (efficiency_ratio e e')) (perArea (st_floorArea (pa_structure (bm_params u))) (hv_gas_ht (mr_hvac m))).
Proof.
  intros He He' V V' (O1 & (s & O2) & a & b & O3 & O4 & N) S0. pose proof (same_incl monthly_need_inputs _ _ _ S0 eq_refl) as S. pose proof (ratio_pos _ _ He He') as Hf.
  destruct (needs_same _ _ _ _ _ S R1 R') as (E1 & E2 & E3 & E4 & _).
  rewrite (rn_hvac _ _ _ R'), (rn_hvac _ _ _ R1), E1, E2, E3, E4. cbn [hvac hv_gas_ht]. unfold distHt.
  pose proof (value_of _ _ _ _ V eq_refl) as K1. pose proof (value_of _ _ _ _ V' eq_refl) as K2.
  pose proof (key_same _ "floorarea" u u' _ S0 eq_refl eq_refl) as K3. pose proof (key_same _ "dh_yesno" u u' _ S0 eq_refl eq_refl) as K4.
  pose proof (key_same _ "hvacheatinglossfactor" u u' _ S0 eq_refl eq_refl) as K5. pose proof (key_same _ "hvacwastefactor" u u' _ S0 eq_refl eq_refl) as K6.
  pose proof (word_same _ "heatingfueltype" u u' _ S0 eq_refl eq_refl) as K7. pose proof (key_same _ "frac_dh_free" u u' _ S0 eq_refl eq_refl) as K8.
  pose proof (key_same _ "eta_dh_sys" u u' _ S0 eq_refl eq_refl) as K9. pose proof (key_same _ "eta_dh_network" u u' _ S0 eq_refl eq_refl) as K10.
  pose proof (value_of _ _ _ _ O1 eq_refl) as Q1. pose proof (value_of _ _ _ _ O2 eq_refl) as Q2. pose proof (value_of _ _ _ _ O3 eq_refl) as Q3. pose proof (value_of _ _ _ _ O4 eq_refl) as Q4.
  cbn [snd fst] in *. rewrite K1, K2, K3, K4, K5, K6, K7, K8, K9, K10, Q1, Q2, Q3, Q4, (ratio_divs _ _ _ He He').
  rewrite <- zn0, zero_one. rewrite <- (perArea_tm _ _ _ Hf area_nz). f_equal.
  destruct (neqb _ _); [exact (nothing_lost _ s a b N)|]. rewrite <- vadd_tm. f_equal. exact (nothing_lost _ s a b N).
Qed.
Lemma cooling_times e e' q : 0 <= e * q -> 0 <= e' * q -> has_value "coolingsystemcop" e u -> has_value "coolingsystemcop" e' u' -> has_value "coolingsystemiplvtocopratio" q u ->
  own_plant "dc_yesno" "eta_dc_frac_abs" "eta_dc_cop" "eta_dc_network" u ->
  same_parameters (without ["coolingsystemcop"%string] monthly_cooling_inputs) u u' ->
  perArea (st_floorArea (pa_structure (bm_params u'))) (hv_elec_cl (mr_hvac m')) =
  map (tm (efficiency_ratio (e * q) (e' * q))) (perArea (st_floorArea (pa_structure (bm_params u))) (hv_elec_cl (mr_hvac m))).
Proof.
  intros He He' V V' Vq (O1 & (s & O2) & a & b & O3 & O4 & N) S0. pose proof (same_incl monthly_need_inputs _ _ _ S0 eq_refl) as S. pose proof (ratio_pos _ _ He He') as Hf.
  destruct (needs_same _ _ _ _ _ S R1 R') as (E1 & E2 & E3 & E4 & _).
  rewrite (rn_hvac _ _ _ R'), (rn_hvac _ _ _ R1), E1, E2, E3, E4. cbn [hvac hv_elec_cl]. unfold distCl.
  pose proof (value_of _ _ _ _ V eq_refl) as K1. pose proof (value_of _ _ _ _ V' eq_refl) as K2.
  pose proof (key_same _ "floorarea" u u' _ S0 eq_refl eq_refl) as K3. pose proof (key_same _ "dc_yesno" u u' _ S0 eq_refl eq_refl) as K4.
  pose proof (key_same _ "hvaccoolinglossfactor" u u' _ S0 eq_refl eq_refl) as K5. pose proof (key_same _ "hvacwastefactor" u u' _ S0 eq_refl eq_refl) as K6.
  pose proof (key_same _ "coolingsystemiplvtocopratio" u u' _ S0 eq_refl eq_refl) as K7. pose proof (key_same _ "eta_dc_frac_abs" u u' _ S0 eq_refl eq_refl) as K8.
  pose proof (key_same _ "eta_dc_cop" u u' _ S0 eq_refl eq_refl) as K9. pose proof (key_same _ "eta_dc_network" u u' _ S0 eq_refl eq_refl) as K10.
  pose proof (value_of _ _ _ _ O1 eq_refl) as Q1. pose proof (value_of _ _ _ _ O2 eq_refl) as Q2. pose proof (value_of _ _ _ _ O3 eq_refl) as Q3. pose proof (value_of _ _ _ _ O4 eq_refl) as Q4.
  pose proof (value_of _ _ _ _ Vq eq_refl) as Q5.
  cbn [snd fst] in *. rewrite K1, K2, K3, K4, K5, K6, K7, K8, K9, K10, Q1, Q2, Q3, Q4, Q5.
  change (nmul (Fin e') (Fin q)) with (Fin (e' * q)). change (nmul (Fin e) (Fin q)) with (Fin (e * q)). rewrite (ratio_divs _ _ _ He He').
  rewrite <- zn0, zero_one. rewrite <- (perArea_tm _ _ _ Hf area_nz). f_equal.
  rewrite <- vadd_tm. f_equal. exact (nothing_lost _ s a b N).
Qed.
End Plant.
