(** Heating, cooling and pumps in the tables of the monthly engine. *)
From Coq Require Import Reals Lra String List ZArith Lia Bool.
From Verif Require Import Base Num Xr M_Params M_UserModel M_Monthly M_Map S_Monthly S_Loading S_Results S_Inputs S_Scaling E_SmallOffice E_Monthly
  L_Xr L_Monthly3 L_Monthly4 L_Inputs L_Inputs2 L_UserModel L_Scaling L_Scaling4 L_Scaling5 L_Scaling6 L_Scaling7.
Import ListNotations.
Open Scope R_scope.

Lemma table_times f u u' w rows rows' k : simulateMonthly (bm_params u) w = Ok rows -> simulateMonthly (bm_params u') w = Ok rows' -> (k < 13)%nat ->
  (forall m m', run (bm_params u) w m -> run (bm_params u') w m' -> nth_error (columns (bm_params u') m') k = option_map (map (tm f)) (nth_error (columns (bm_params u) m) k)) ->
  column k rows' = all_times f (column k rows).
Proof.
  intros H H' K G.
  destruct (simulateMonthly_cases _ _ _ H) as (m & R1 & [Sl Sh] & C). destruct (simulateMonthly_cases _ _ _ H') as (m' & R' & [Sl' Sh'] & C').
  pose proof (G m m' R1 R') as E. destruct (nth_error (columns (bm_params u) m) k) as [v|] eqn:Ev.
  - cbn [option_map] in E. exact (tm_series f k rows rows' _ (C k v Ev) (C' k _ E)).
  - apply nth_error_None in Ev. unfold columns, outputColumns in Ev. cbn [length] in Ev. lia.
Qed.
Lemma C89_pumps_l c u u' w rows rows' keys : 0 < c -> In keys [pump_powers; pump_controls] ->
  (forall key, In key (["floorarea"%string] ++ pump_powers ++ pump_controls) -> nonzero_parameter key u) ->
  (forall key, In key keys -> multiplied c key u u') -> same_parameters (without keys (monthly_inputs elec_pumps)) u u' ->
  simulateMonthly (bm_params u) w = Ok rows -> simulateMonthly (bm_params u') w = Ok rows' ->
  column elec_pumps rows' = all_times c (column elec_pumps rows).
Proof.
  intros Hc K NZ M S H H'. apply (table_times c u u' w); [exact H|exact H'|unfold elec_pumps; lia|]. intros m m' R1 R'.
  unfold columns, outputColumns, elec_pumps. cbn [nth_error option_map]. f_equal. exact (pumps_times c u u' w m m' Hc R1 R' NZ keys K M S).
Qed.
Lemma C89_heating_l e e' u u' w rows rows' k : 0 <= e -> 0 <= e' -> In k [elec_heating; gas_heating] -> nonzero_parameter "floorarea" u ->
  own_plant "dh_yesno" "frac_dh_free" "eta_dh_sys" "eta_dh_network" u ->
  has_value "heatingsystemefficiency" e u -> has_value "heatingsystemefficiency" e' u' ->
  same_parameters (without ["heatingsystemefficiency"%string] (monthly_inputs k)) u u' ->
  simulateMonthly (bm_params u) w = Ok rows -> simulateMonthly (bm_params u') w = Ok rows' ->
  column k rows' = all_times (efficiency_ratio e e') (column k rows).
Proof.
  intros He He' K F O V V' S H H'. apply (table_times _ u u' w); [exact H|exact H'|destruct K as [<-|[<-|[]]]; unfold elec_heating, gas_heating; lia|]. intros m m' R1 R'.
  unfold columns, outputColumns. destruct K as [<-|[<-|[]]]; unfold elec_heating, gas_heating in *; cbn [nth_error option_map]; f_equal.
  - exact (heating_times u u' w m m' R1 R' F e e' He He' V V' S).
  - exact (gas_times u u' w m m' R1 R' F e e' He He' V V' O S).
Qed.
Lemma C89_cooling_l e e' q u u' w rows rows' : 0 <= e * q -> 0 <= e' * q -> nonzero_parameter "floorarea" u ->
  own_plant "dc_yesno" "eta_dc_frac_abs" "eta_dc_cop" "eta_dc_network" u ->
  has_value "coolingsystemcop" e u -> has_value "coolingsystemcop" e' u' -> has_value "coolingsystemiplvtocopratio" q u ->
  same_parameters (without ["coolingsystemcop"%string] (monthly_inputs elec_cooling)) u u' ->
  simulateMonthly (bm_params u) w = Ok rows -> simulateMonthly (bm_params u') w = Ok rows' ->
  column elec_cooling rows' = all_times (efficiency_ratio (e * q) (e' * q)) (column elec_cooling rows).
Proof.
  intros He He' F O V V' Vq S H H'. apply (table_times _ u u' w); [exact H|exact H'|unfold elec_cooling; lia|]. intros m m' R1 R'.
  unfold columns, outputColumns, elec_cooling in *. cbn [nth_error option_map]. f_equal. exact (cooling_times u u' w m m' R1 R' F e e' q He He' V V' Vq O S).
Qed.

(** ** The office with another boiler *)
Definition coded_boiler : building_model xr := set_num (N_heating F_ht_efficiency) (Fin 3) coded_file.
Ltac value I := repeat (destruct I as [I|I]; [apply pair_equal_spec in I; destruct I as [Ik Ip]; subst; first [discriminate Ik|
  cbn; try reflexivity; unfold Rlit, zn; cbn; unfold Rlit; try reflexivity; f_equal; lra]|]); destruct I.
Lemma coded_boiler_unchanged : unchanged_except "heatingsystemefficiency" coded_file coded_boiler.
Proof.
  split; [|split; [|split; [|split; [|split]]]].
  - intros k p I D.
    repeat (destruct I as [I|I]; [apply pair_equal_spec in I; destruct I as [<- <-]; first [reflexivity|exfalso; apply D; reflexivity]|]). destruct I.
  - intros k p I D. repeat (destruct I as [I|I]; [apply pair_equal_spec in I; destruct I as [<- <-]; reflexivity|]). destruct I.
  - intros k p words I D. repeat (destruct I as [I|I]; [apply pair_equal_spec in I; destruct I as [I <-]; apply pair_equal_spec in I; destruct I as [<- <-]; reflexivity|]). destruct I.
  - intros k p I D. repeat (destruct I as [I|I]; [apply pair_equal_spec in I; destruct I as [<- <-]; reflexivity|]). destruct I.
  - intros _. reflexivity.
  - intros _. reflexivity.
Qed.
Lemma coded_boiler_case : nonzero_parameter "floorarea" coded_file /\
  own_plant "dh_yesno" "frac_dh_free" "eta_dh_sys" "eta_dh_network" coded_file /\
  own_plant "dc_yesno" "eta_dc_frac_abs" "eta_dc_cop" "eta_dc_network" coded_file /\
  (exists e, 0 <= e /\ has_value "heatingsystemefficiency" e coded_file) /\ has_value "heatingsystemefficiency" 3 coded_boiler /\
  same_parameters (without ["heatingsystemefficiency"%string] (monthly_inputs gas_heating)) coded_file coded_boiler /\
  (forall key, In key (["floorarea"%string] ++ pump_powers ++ pump_controls) -> nonzero_parameter key coded_file) /\
  (exists rows, simulateMonthly (bm_params coded_file) mildYear = Ok rows) /\
  (exists rows, simulateMonthly (bm_params coded_boiler) mildYear = Ok rows).
Proof.
  split; [apply coded_divisors; left; reflexivity|].
  split. { split; [intros p I; value I|]. split; [exists 0; intros p I; value I|]. exists (87 / 100), (9 / 10). split; [intros p I; value I|]. split; [intros p I; value I|]. lra. }
  split. { split; [intros p I; value I|]. split; [exists 0; intros p I; value I|]. exists (55 / 10), (9 / 10). split; [intros p I; value I|]. split; [intros p I; value I|]. lra. }
  split. { exists (213505737091766 / 100000000000000). split; [lra|]. intros p I; value I. }
  split. { intros p I; value I. }
  split. { apply others_same, coded_boiler_unchanged. }
  split.
  { intros key [<-|[<-|[<-|[<-|[<-|[]]]]]] p I;
    (repeat (destruct I as [I|I]; [apply pair_equal_spec in I; destruct I as [Ik Ip]; subst; first [discriminate Ik|
       intros E; cbn in E; unfold zn in E; cbn in E; injection E as E; revert E; unfold Rlit; lra]|]); destruct I). }
  split; [exact coded_runs|]. destruct coded_runs as [rows E]. apply C18_monthly_defined_l. apply ex_intro with (x := rows), C18_monthly_defined_l in E. exact E.
Qed.
