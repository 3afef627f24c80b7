(** Two offices that differ in the efficiency of the boiler, or in the demand for hot water. *)
From Coq Require Import Reals Lra String List ZArith Lia Bool.
From Verif Require Import Base Num Xr M_Params M_UserModel M_Hourly M_Monthly S_Loading S_Results S_Inputs S_Scaling E_SmallOffice
  M_Map E_Monthly L_Xr L_UserModel L_HourlyShape L_HourlyOut L_Office L_Monthly3 L_Monthly4 L_Inputs L_Inputs2 L_Scaling.
Import ListNotations.
Open Scope R_scope.

Definition better_boiler : building_model xr :=
  set_num (N_heating F_ht_efficiency) (xmul (ht_efficiency (pa_heating (@smallOffice xr _))) (Fin 2)) office_file.
Definition coded_file : building_model xr := mkBuildingModel (map_params Fin (@monthlyOffice R _)) (bm_weatherFilePath office_file).
Definition more_water : building_model xr :=
  set_num (N_heating F_ht_hotWaterDemand) (xmul (ht_hotWaterDemand (pa_heating (map_params Fin (@monthlyOffice R _)))) (Fin 2)) coded_file.
Ltac each I := repeat (destruct I as [I|I]; [apply pair_equal_spec in I; destruct I as [Ik Ip]; subst; first [discriminate Ik|reflexivity]|]); destruct I.
Lemma boiler_times : forall key, In key ["heatingsystemefficiency"%string] -> multiplied 2 key office_file better_boiler.
Proof. intros key [<-|[]] p I. each I. Qed.
Lemma water_more : forall key, In key ["dhwdemand"%string] -> multiplied 2 key coded_file more_water.
Proof. intros key [<-|[]] p I. each I. Qed.
Lemma boiler_unchanged : unchanged_except "heatingsystemefficiency" office_file better_boiler.
Proof.
  split; [|split; [|split; [|split; [|split]]]].
  - intros k p I D.
    repeat (destruct I as [I|I]; [apply pair_equal_spec in I; destruct I as [<- <-]; first [reflexivity|exfalso; apply D; reflexivity]|]). destruct I.
  - intros k p I D. repeat (destruct I as [I|I]; [apply pair_equal_spec in I; destruct I as [<- <-]; reflexivity|]). destruct I.
  - intros k p words I D. repeat (destruct I as [I|I]; [apply pair_equal_spec in I; destruct I as [I <-]; apply pair_equal_spec in I; destruct I as [<- <-]; reflexivity|]). destruct I.
  - intros k p I D. repeat (destruct I as [I|I]; [apply pair_equal_spec in I; destruct I as [<- <-]; reflexivity|]). destruct I.
  - intros _. reflexivity.
  - intros _. reflexivity.
Qed.
Lemma water_unchanged : unchanged_except "dhwdemand" coded_file more_water.
Proof.
  split; [|split; [|split; [|split; [|split]]]].
  - intros k p I D.
    repeat (destruct I as [I|I]; [apply pair_equal_spec in I; destruct I as [<- <-]; first [reflexivity|exfalso; apply D; reflexivity]|]). destruct I.
  - intros k p I D. repeat (destruct I as [I|I]; [apply pair_equal_spec in I; destruct I as [<- <-]; reflexivity|]). destruct I.
  - intros k p words I D. repeat (destruct I as [I|I]; [apply pair_equal_spec in I; destruct I as [I <-]; apply pair_equal_spec in I; destruct I as [<- <-]; reflexivity|]). destruct I.
  - intros k p I D. repeat (destruct I as [I|I]; [apply pair_equal_spec in I; destruct I as [<- <-]; reflexivity|]). destruct I.
  - intros _. reflexivity.
  - intros _. reflexivity.
Qed.
Lemma without_in key l k : In k (without [key] l) -> k <> key.
Proof. unfold without. intros I. apply filter_In in I as [_ E]. cbn in E. rewrite orb_false_r in E. apply negb_true_iff, String.eqb_neq in E. exact E. Qed.
Lemma others_same {T} key l (u u' : building_model T) : unchanged_except key u u' -> same_parameters (without [key] l) u u'.
Proof. intros U k I. apply (unchanged_same key k u u' U), (without_in _ _ _ I). Qed.

Lemma boiler_runs agg t : exists rows r, simulate (bm_params better_boiler) (constant_year 8760 t) no_ratios agg = Ok (rows, r).
Proof.
  destruct (simulateRaw_ok (bm_params better_boiler) (constant_year 8760 t) no_ratios) as (raw & r & E).
  - exact office_ints.
  - reflexivity.
  - rewrite constant_year_length; lia.
  - apply constant_year_nine.
  - destruct (simulate_both _ _ _ _ _ E) as (h & m & E1 & E2 & _). destruct agg; eexists; eexists; [exact E2|exact E1].
Qed.
Lemma coded_divisors : forall key, In key divisors -> nonzero_parameter key coded_file.
Proof.
  intros key [<-|[<-|[<-|[]]]] p I;
  (repeat (destruct I as [I|I]; [apply pair_equal_spec in I; destruct I as [Ik Ip]; subst; first [discriminate Ik|
     intros E; cbn in E; injection E as E; revert E; cbn [lit R_num]; unfold Rlit; lra]|]); destruct I).
Qed.
Lemma coded_runs : exists rows, simulateMonthly (bm_params coded_file) mildYear = Ok rows.
Proof. apply (office_defined (@monthlyOffice R _)); [reflexivity|]. cbn [monthlyOffice with_structure smallOffice pa_building bu_bem]. apply zn_R. Qed.
Lemma water_runs : exists rows, simulateMonthly (bm_params more_water) mildYear = Ok rows.
Proof. destruct coded_runs as [rows E]. apply C18_monthly_defined_l. apply ex_intro with (x := rows), C18_monthly_defined_l in E. exact E. Qed.
Lemma boiler_hypotheses : In (gas_heating, ["heatingsystemefficiency"%string], Inverse) hourly_scaling /\
  (forall key, In key ["heatingsystemefficiency"%string] -> multiplied 2 key office_file better_boiler) /\
  same_parameters (without ["heatingsystemefficiency"%string] (hourly_inputs gas_heating)) office_file better_boiler /\
  forall agg t, (exists rows r, simulate (bm_params office_file) (constant_year 8760 t) no_ratios agg = Ok (rows, r)) /\
    (exists rows r, simulate (bm_params better_boiler) (constant_year 8760 t) no_ratios agg = Ok (rows, r)).
Proof.
  split; [cbn; tauto|]. split; [exact boiler_times|]. split; [apply others_same, boiler_unchanged|].
  intros agg t. split; [exact (office_runs agg t)|exact (boiler_runs agg t)].
Qed.
Lemma water_hypotheses : In (gas_dhw, ["dhwdemand"%string], Proportional) monthly_scaling /\
  (forall key, In key divisors -> nonzero_parameter key coded_file) /\
  (forall key, In key ["dhwdemand"%string] -> multiplied 2 key coded_file more_water) /\
  same_parameters (without ["dhwdemand"%string] (monthly_inputs gas_dhw)) coded_file more_water /\
  (exists rows, simulateMonthly (bm_params coded_file) mildYear = Ok rows) /\
  (exists rows, simulateMonthly (bm_params more_water) mildYear = Ok rows).
Proof.
  split; [unfold monthly_scaling; cbn [In]; tauto|]. split; [exact coded_divisors|]. split; [exact water_more|].
  split; [apply others_same, water_unchanged|]. split; [exact coded_runs|exact water_runs].
Qed.
