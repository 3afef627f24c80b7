From Coq Require Import Reals Lra Psatz String List ZArith Lia Bool.
From Verif Require Import Base Num Xr M_Params M_UserModel M_Hourly M_Monthly S_Calendar S_Loading S_Results S_Inputs S_Scaling
  L_Xr L_Calendar L_HourlyShape L_HourlyOut L_Inputs L_Inputs2 L_Scaling L_Scaling2.
Import ListNotations.
Open Scope R_scope.

Lemma kWh_times c (Hc : 0 < c) l : map (fun w => (w / zn 1000)%num) (map (tm c) l) = map (tm c) (map (fun w => (w / zn 1000)%num) l).
Proof. rewrite !map_map. apply map_ext. intros x. exact (tm_div c Hc x _). Qed.

Section Columns.
Variables (c : R) (u u' : building_model xr) (ws : list (weather xr)) (r0 r r' : ratios xr) (raw raw' : list (hourres xr)).
Hypothesis Hc : 0 < c.
Hypothesis (H : simulateRaw (bm_params u) ws r0 = Ok (raw, r)).
Hypothesis (H' : simulateRaw (bm_params u') ws r0 = Ok (raw', r')).
Notation mult keys := (forall key, In key keys -> multiplied c key u u').
Notation Hi := (Rinv_0_lt_compat c Hc).

Lemma need_maps_of l : same_parameters l u u' -> forallb (fun k => existsb (String.eqb k) l) hourly_need_inputs = true ->
  map hr_Qneed_ht raw' = map hr_Qneed_ht raw /\ map hr_Qneed_cl raw' = map hr_Qneed_cl raw.
Proof. intros S E. apply need_maps. exact (need_same u u' ws r0 r r' raw raw' H H' (same_incl _ _ _ _ S E)). Qed.
Lemma zeros_times l : map (fun w => (w / zn 1000)%num) (map (fun _ : hourres xr => zn 0) l) = map (tm (/ c)) (map (fun w => (w / zn 1000)%num) (map (fun _ => zn 0) l)).
Proof. rewrite <- (kWh_times _ Hi). f_equal. rewrite map_map. apply map_ext. intros _. symmetry. apply tm_zn0. Qed.
Lemma heating_times k : (k = elec_heating \/ k = gas_heating) -> mult ["heatingsystemefficiency"%string] ->
  same_parameters (without ["heatingsystemefficiency"%string] hourly_heating_inputs) u u' ->
  nth_error (resultVectors (bm_params u') raw') k = option_map (map (tm (/ c))) (nth_error (resultVectors (bm_params u) raw) k).
Proof.
  intros K M S. destruct (need_maps_of _ S eq_refl) as [N1 N2].
  pose proof (key_times c _ "heatingsystemefficiency" u u' _ M eq_refl eq_refl) as E1.
  pose proof (word_same _ "heatingfueltype" u u' _ S eq_refl eq_refl) as E2.
  pose proof (key_same _ "hvacheatinglossfactor" u u' _ S eq_refl eq_refl) as E3.
  pose proof (key_same _ "hvacwastefactor" u u' _ S eq_refl eq_refl) as E4. cbn [snd fst] in E1, E2, E3, E4.
  assert (Z : map (fun _ : hourres xr => @zn xr _ 0) raw' = map (fun _ => zn 0) raw).
  { apply zeroes_same. pose proof (simulateRaw_length _ _ _ _ _ H). pose proof (simulateRaw_length _ _ _ _ _ H'). lia. }
  assert (V : forall q a b, map (fun need => (need / eta_dist_ht (bm_params u') a b / ht_efficiency (pa_heating (bm_params u')))%num) q =
    map (tm (/ c)) (map (fun need => (need / eta_dist_ht (bm_params u) a b / ht_efficiency (pa_heating (bm_params u)))%num) q)).
  { intros q a b. rewrite map_map. apply map_ext. intros x. unfold eta_dist_ht. rewrite E1, E3, E4. exact (div_tm c _ _ Hc). }
  unfold resultVectors. rewrite N1, N2, V, E2, Z.
  destruct K as [-> | ->]; unfold elec_heating, gas_heating; cbn [map nth_error option_map]; f_equal; destruct (_ =? _)%num; [apply (kWh_times _ Hi)|apply zeros_times|apply zeros_times|apply (kWh_times _ Hi)].
Qed.
Lemma cooling_times : mult ["coolingsystemcop"%string] -> same_parameters (without ["coolingsystemcop"%string] hourly_cooling_inputs) u u' ->
  nth_error (resultVectors (bm_params u') raw') elec_cooling = option_map (map (tm (/ c))) (nth_error (resultVectors (bm_params u) raw) elec_cooling).
Proof.
  intros M S. destruct (need_maps_of _ S eq_refl) as [N1 N2].
  pose proof (key_times c _ "coolingsystemcop" u u' _ M eq_refl eq_refl) as E1.
  pose proof (key_same _ "hvaccoolinglossfactor" u u' _ S eq_refl eq_refl) as E3.
  pose proof (key_same _ "hvacwastefactor" u u' _ S eq_refl eq_refl) as E4. cbn [snd fst] in E1, E3, E4.
  unfold resultVectors, elec_cooling. cbn [map nth_error option_map]. rewrite N1, N2, <- (kWh_times _ Hi). do 2 f_equal.
  generalize (map hr_Qneed_cl raw) at 2 4. intros q. rewrite map_map. apply map_ext. intros x. unfold eta_dist_cl. rewrite E1, E3, E4. exact (div_tm c _ _ Hc).
Qed.
Lemma column_times k keys d : In (k, keys, d) hourly_scaling -> mult keys -> same_parameters (without keys (hourly_inputs k)) u u' ->
  nth_error (resultVectors (bm_params u') raw') k = option_map (map (tm (factor d c))) (nth_error (resultVectors (bm_params u) raw) k).
Proof.
  intros I M S. unfold hourly_scaling in I. cbn [In] in I.
  repeat match type of I with _ \/ _ => destruct I as [I|I] | False => destruct I end; injection I as <- <- <-; cbn [factor].
  - apply heating_times; auto.
  - apply heating_times; auto.
  - apply cooling_times; assumption.
  - unfold resultVectors, elec_int_lights. cbn [map nth_error option_map]. f_equal. rewrite <- (kWh_times _ Hc). f_equal. exact (light_times c u u' ws r0 r r' raw raw' Hc H H' M S).
  - unfold resultVectors, elec_ext_lights. cbn [map nth_error option_map]. f_equal. rewrite <- (kWh_times _ Hc). f_equal. exact (ext_light_times c u u' ws r0 r r' raw raw' Hc H H' M S).
  - unfold resultVectors, elec_fans. cbn [map nth_error option_map]. f_equal. rewrite <- (kWh_times _ Hc). f_equal. exact (fan_times c u u' ws r0 r r' raw raw' Hc H H' M S).
  - unfold resultVectors, elec_pumps. cbn [map nth_error option_map]. f_equal. rewrite <- (kWh_times _ Hc). f_equal. exact (pump_times c u u' ws r0 r r' raw raw' Hc H H' _ (or_introl eq_refl) M S).
  - unfold resultVectors, elec_pumps. cbn [map nth_error option_map]. f_equal. rewrite <- (kWh_times _ Hc). f_equal. exact (pump_times c u u' ws r0 r r' raw raw' Hc H H' _ (or_intror (or_introl eq_refl)) M S).
  - unfold resultVectors, elec_int_equip. cbn [map nth_error option_map]. f_equal. rewrite <- (kWh_times _ Hc). f_equal. exact (plug_times c u u' ws r0 r r' raw raw' H H' M S).
  - unfold resultVectors, elec_ext_equip. cbn [map nth_error option_map]. f_equal. rewrite <- (kWh_times _ Hc). f_equal. exact (ext_equip_times c u u' ws r0 r r' raw raw' Hc H H' M S).
Qed.
End Columns.

Lemma factor_pos d c : 0 < c -> 0 < factor d c.
Proof. intros Hc. destruct d; [exact Hc|apply Rinv_0_lt_compat, Hc]. Qed.
Lemma C89_hourly_l c u u' ws r0 agg rows r rows' r' k keys d : 0 < c -> In (k, keys, d) hourly_scaling ->
  (forall key, In key keys -> multiplied c key u u') -> same_parameters (without keys (hourly_inputs k)) u u' ->
  simulate (bm_params u) ws r0 agg = Ok (rows, r) -> simulate (bm_params u') ws r0 agg = Ok (rows', r') ->
  column k rows' = all_times (factor d c) (column k rows).
Proof.
  intros Hc I M S H H'. pose proof (factor_pos d c Hc) as Hf.
  destruct (simulate_det _ _ _ _ _ _ H) as (raw & Hr & [Sl Sh] & C). destruct (simulate_det _ _ _ _ _ _ H') as (raw' & Hr' & [Sl' Sh'] & C').
  pose proof (column_times c u u' ws r0 r r' raw raw' Hc Hr Hr' k keys d I M S) as E.
  assert (K : (k < 13)%nat) by (clear - I; unfold hourly_scaling in I; cbn [In] in I; repeat match type of I with _ \/ _ => destruct I as [I|I] | False => destruct I end; injection I as <- _ _; unfold elec_heating, gas_heating, elec_cooling, elec_int_lights, elec_ext_lights, elec_fans, elec_pumps, elec_int_equip, elec_ext_equip; lia).
  destruct (nth_error (resultVectors (bm_params u) raw) k) as [v|] eqn:Ev.
  - cbn [option_map] in E. pose proof (C k v Ev) as X. pose proof (C' k _ E) as X'. apply (tm_series (factor d c) k rows rows' _ X).
    destruct agg; [|exact X']. rewrite map_map. replace (map (fun x => tm (factor d c) (accumulate (month_part x v))) (zrange 1 12)) with (map (fun m => accumulate (month_part m (map (tm (factor d c)) v))) (zrange 1 12)); [exact X'|].
    apply map_ext_in. intros m Im. rewrite <- map_month_part; [apply tm_sum|]. unfold zrange in Im. apply in_map_iff in Im as (j&<-&Ij). apply in_seq in Ij. lia.
  - apply nth_error_None in Ev. rewrite (proj1 (resultVectors_shape _ _)) in Ev. lia.
Qed.
