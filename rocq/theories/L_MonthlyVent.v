(** Air flows of the monthly engine, and against the hourly engine's. *)
From Coq Require Import Reals Lra Psatz ZArith List Bool Lia.
From Verif Require Import Base Num Xr M_Params M_Hourly M_Monthly M_Map L_Xr L_HourlyShape L_HourlyFin2 L_Office S_Calendar S_Schedule S_Results S_Monthly
  S_MonthlySound S_MonthlyHeat S_Physical L_Monthly L_Monthly2 L_Monthly3 L_Monthly4 L_Monthly5 L_Monthly6 L_MonthlyFin L_MonthlyFin2 E_SmallOffice E_Monthly.
Import ListNotations.
Open Scope R_scope.

Lemma lit_pos n d : (0 < n)%Z -> 0 < @lit R _ n d.
Proof. intros H. cbn [lit R_num]. unfold Rlit. apply Rmult_lt_0_compat; [now apply IZR_lt|]. apply Rinv_0_lt_compat. now apply IZR_lt. Qed.
Lemma stack_nonneg (p : params_t R) a b : 0 < stackFlow p a b.
Proof. unfold stackFlow. ops. eapply Rlt_le_trans; [|apply Rmax_r]. now apply lit_pos. Qed.
Lemma wind_nonneg p x : sound p -> vent_nonneg p -> 0 <= windFlow p x.
Proof.
  intros S V. unfold windFlow. ops. apply Rmult_le_pos; [apply Rmult_le_pos|]; try apply V. apply Rpow_nonneg. apply Rmult_le_pos; [apply Rle_0_sqr|apply S].
Qed.
Lemma sdiv_nonneg (a b : R) : 0 <= a -> 0 <= b -> 0 <= sdiv a b.
Proof.
  intros A B. unfold sdiv. rewrite zn_R. ops. destruct (Reqb_spec b 0) as [E|E]; [pose proof Rdblmax_big; cbn; lra|]. apply Rmult_le_pos; [exact A|]. apply Rlt_le, Rinv_0_lt_compat. lra.
Qed.
Lemma infil_nonneg p a b : sound p -> vent_nonneg p -> 0 <= infiltration p (stackFlow p a b) (windFlow p a) /\ forall c, 0 <= infiltration p (stackFlow p a b) (windFlow p c).
Proof.
  intros S V. assert (G : forall c, 0 <= infiltration p (stackFlow p a b) (windFlow p c)); [|split; [apply G|exact G]].
  intros c. unfold infiltration. rewrite zn_R. ops. pose proof (stack_nonneg p a b) as SN. pose proof (wind_nonneg p c S V) as WN.
  assert (0 <= Rmax (stackFlow p a b) (windFlow p c)) by (eapply Rle_trans; [|apply Rmax_l]; lra).
  assert (0 <= Rmax 0 (- flowDifference p)) by apply Rmax_l.
  assert (0 <= sdiv (stackFlow p a b * windFlow p c * lit 14 100) (st_infiltrationRate (pa_structure p))).
  { apply sdiv_nonneg; [|apply V]. apply Rmult_le_pos; [apply Rmult_le_pos; lra|]. apply Rlt_le. now apply lit_pos. }
  lra.
Qed.
Lemma supply_R (p : params_t R) : supplyPerArea p = ve_supplyRate (pa_ventilation p) / st_floorArea (pa_structure p) / (36 / 10).
Proof. unfold supplyPerArea. ops. cbn [lit R_num]. reflexivity. Qed.
Lemma supply_nonneg p : sound p -> vent_nonneg p -> 0 <= supplyPerArea p.
Proof.
  intros S V. rewrite supply_R. pose proof (so_area p S). pose proof (vn_supply p V). unfold Rdiv at 1. apply Rmult_le_pos; [|lra]. apply Rmult_le_pos; [lra|]. apply Rlt_le. now apply Rinv_0_lt_compat.
Qed.
Lemma mech_nonneg p : sound p -> vent_nonneg p -> 0 <= mechanicalFlow p (oc_wk_day (scheduleAndOccupancy (pa_population p))).
Proof.
  intros S V. pose proof (sound_occ p S) as (_ & _ & _ & W). cbv zeta in W. set (wk := oc_wk_day _) in *. clearbody wk.
  unfold mechanicalFlow. rewrite !zn_R. ops. destruct (Reqb _ 3); [lra|]. apply Rmult_le_pos; [apply Rmult_le_pos; [apply Rmult_le_pos|]|].
  - unfold ventFraction. rewrite !zn_R. ops. pose proof (so_dens1 p S). pose proof (so_dens2 p S).
    assert (0 <= wk + (1 - wk) * po_densityOcc (pa_population p) / po_densityUnocc (pa_population p)).
    { apply Rplus_le_le_0_compat; [lra|]. apply Rmult_le_pos; [apply Rmult_le_pos; lra|]. apply Rlt_le. now apply Rinv_0_lt_compat. }
    destruct (ve_vent_rate_flag (pa_ventilation p)) as [|[]|]; lra.
  - now apply supply_nonneg.
  - pose proof (vn_rec p V). lra.
  - pose proof (vn_hre p V). lra.
Qed.
Lemma coef_R p wk a b c : ventilationCoefficient p wk a b c = (infiltration p (stackFlow p a c) (windFlow p b) + mechanicalFlow p wk) * (ph_rhoCpAir (pa_phys p) * 1000000) / 3600.
Proof. unfold ventilationCoefficient. rewrite !zn_R. rewrite sdiv_R by lra. reflexivity. Qed.
Lemma vent_in p w wk t h : In h (ventilationCalc p w wk t) -> exists a b c, h = @ventilationCoefficient R _ p wk a b c.
Proof.
  unfold ventilationCalc. generalize (mw_mdbt w) (mw_mwind w). intros a. revert t. induction a as [|x a IH]; intros [|y t] [|z b] I; cbn [zipw] in I; try (destruct I; fail).
  destruct I as [<-|I]; eauto.
Qed.
Lemma C34_l p w m : sound p -> vent_nonneg p -> monthlyAll (map_params Fin p) (fin_weather w) = Ok m ->
  forall x, In x (mr_Hve_ht m) \/ In x (mr_Hve_cl m) -> exists h, x = Fin h /\ 0 <= h.
Proof.
  intros S V M x I. apply monthlyAll_run in M. destruct (run_fin _ _ _ S M) as (r & E & F).
  assert (G : forall t y, In y (ventilationCalc p w (oc_wk_day (mr_occ r)) t) -> 0 <= y).
  { intros t y J. apply vent_in in J. destruct J as (a & b & c & ->). rewrite coef_R, (rn_oc _ _ _ E).
    pose proof (proj2 (infil_nonneg p a c S V) b). pose proof (mech_nonneg p S V). pose proof (vn_rho p V).
    unfold Rdiv. apply Rmult_le_pos; [|lra]. apply Rmult_le_pos; lra. }
  rewrite (fr_Hve_ht _ _ F), (fr_Hve_cl _ _ F) in I. destruct I as [I|I]; apply in_map_iff in I; destruct I as (h & <- & I); exists h; (split; [reflexivity|]).
  - rewrite (rn_Hve_ht _ _ _ E) in I. exact (G _ _ I).
  - rewrite (rn_Hve_cl _ _ _ E) in I. exact (G _ _ I).
Qed.

(** *** The flows themselves *)
Lemma C34_flows_l p stackT dbt wind : sound p -> vent_nonneg p -> let q := map_params Fin p in
  exists s f i k, stackFlow q (Fin dbt) (Fin stackT) = Fin s /\ 0 <= s /\ windFlow q (Fin wind) = Fin f /\ 0 <= f /\ infiltration q (Fin s) (Fin f) = Fin i /\ 0 <= i /\
  mechanicalFlow q (oc_wk_day (scheduleAndOccupancy (pa_population q))) = Fin k /\ 0 <= k.
Proof.
  intros S V q. pose proof (sound_vent p S) as O. unfold q. exists (stackFlow p dbt stackT), (windFlow p wind), (infiltration p (stackFlow p dbt stackT) (windFlow p wind)),
    (mechanicalFlow p (oc_wk_day (scheduleAndOccupancy (pa_population p)))).
  split; [now apply stack_fin|]. split; [apply Rlt_le, stack_nonneg|]. split; [now apply wind_fin|]. split; [now apply wind_nonneg|].
  split; [apply infil_fin, O|]. split; [now apply infil_nonneg|]. split; [|now apply mech_nonneg]. cbn [map_params pa_population]. rewrite oc_fin. cbn [fin_oc oc_wk_day]. now apply mech_fin.
Qed.

(** *** Natural ventilation: the supply rate does not matter *)
Lemma flowDiff_R (p : params_t R) : flowDifference p = ve_supplyDifference (pa_ventilation p) / st_floorArea (pa_structure p) / (36 / 10).
Proof. unfold flowDifference. rewrite zn_R. ops. cbn [lit R_num]. unfold Rlit. lra. Qed.
Lemma sound_supply p x : sound p -> sound (set_supply p x).
Proof. intros S. destruct S. constructor; assumption. Qed.
Lemma coef_natural p x wk a b c : ve_type (pa_ventilation p) = 3 -> @ventilationCoefficient R _ (set_supply p x) wk a b c = ventilationCoefficient p wk a b c.
Proof.
  intros T. rewrite !coef_R. unfold infiltration. rewrite !flowDiff_R. unfold mechanicalFlow. rewrite !zn_R. cbn [set_supply pa_ventilation ve_type pa_structure pa_phys ve_supplyDifference]. ops. rewrite T.
  rewrite Reqb_true by reflexivity. reflexivity.
Qed.
Lemma C34_natural_l p x w m m' : sound p -> ve_type (pa_ventilation p) = 3 ->
  monthlyAll (map_params Fin p) (fin_weather w) = Ok m -> monthlyAll (map_params Fin (set_supply p x)) (fin_weather w) = Ok m' ->
  mr_Hve_ht m' = mr_Hve_ht m /\ mr_Hve_cl m' = mr_Hve_cl m /\ ne_ht (mr_needs m') = ne_ht (mr_needs m) /\ ne_cl (mr_needs m') = ne_cl (mr_needs m).
Proof.
  intros S T M M'. apply monthlyAll_run in M. destruct (run_fin _ _ _ S M) as (r & E & F). apply monthlyAll_run in M'. destruct (run_fin _ _ _ (sound_supply p x S) M') as (r' & E' & F').
  assert (Eoc : mr_occ r' = mr_occ r) by (rewrite (rn_oc _ _ _ E), (rn_oc _ _ _ E'); reflexivity).
  assert (Ebd : mr_bd r' = mr_bd r). { pose proof (rn_bd _ _ _ E') as B'. rewrite Eoc, (rn_bd _ _ _ E) in B'. apply ok_inj in B'. now symmetry. }
  assert (Elu : mr_lu r' = mr_lu r). { rewrite (rn_lu _ _ _ E), (rn_lu _ _ _ E'), Ebd. reflexivity. }
  assert (EH : mr_H_tr r' = mr_H_tr r) by (rewrite (rn_H _ _ _ E), (rn_H _ _ _ E'); reflexivity).
  assert (Es : mr_Esol r' = mr_Esol r).
  { destruct (rn_sol _ _ _ E) as (ws & W & ->). destruct (rn_sol _ _ _ E') as (ws' & W' & ->). cbn [set_supply pa_structure] in W, W'. rewrite W in W'. apply ok_inj in W'. now subst ws'. }
  assert (Eg : mr_gains r' = mr_gains r). { rewrite (rn_gains _ _ _ E), (rn_gains _ _ _ E'), Elu, Eoc. reflexivity. }
  assert (Et : mr_temps r' = mr_temps r).
  { pose proof (rn_temps _ _ _ E) as B. pose proof (rn_temps _ _ _ E') as B'. cbv zeta in B, B'. rewrite Eoc, Ebd, EH, Es, Eg in B'. cbn [set_supply pa_structure] in B'.
    change (interiorTemp (set_supply p x)) with (interiorTemp p) in B'. rewrite B in B'. apply ok_inj in B'. now symmetry. }
  assert (G : forall wk t, ventilationCalc (set_supply p x) w wk t = ventilationCalc p w wk t).
  { intros wk t. unfold ventilationCalc. f_equal. generalize (mw_mdbt w) (mw_mwind w). induction l as [|a l IH]; intros [|b k]; cbn [zipw]; try reflexivity. rewrite IH. f_equal.
    apply FunctionalExtensionality.functional_extensionality. intros c. now apply coef_natural. }
  assert (V1 : mr_Hve_ht r' = mr_Hve_ht r) by (rewrite (rn_Hve_ht _ _ _ E), (rn_Hve_ht _ _ _ E'), Et, Eoc; apply G).
  assert (V2 : mr_Hve_cl r' = mr_Hve_cl r) by (rewrite (rn_Hve_cl _ _ _ E), (rn_Hve_cl _ _ _ E'), Et, Eoc; apply G).
  assert (N1 : ne_ht (mr_needs m') = ne_ht (mr_needs m) /\ ne_cl (mr_needs m') = ne_cl (mr_needs m)).
  { rewrite (rn_needs _ _ _ M), (rn_needs _ _ _ M'), (fr_temps _ _ F), (fr_temps _ _ F'), (fr_Hve_ht _ _ F), (fr_Hve_ht _ _ F'), (fr_Hve_cl _ _ F), (fr_Hve_cl _ _ F'), (fr_sol _ _ F), (fr_sol _ _ F'),
      (fr_gains _ _ F), (fr_gains _ _ F'), (fr_H _ _ F), (fr_H _ _ F'), V1, V2, Et, Es, Eg, EH. split; reflexivity. }
  rewrite (fr_Hve_ht _ _ F), (fr_Hve_ht _ _ F'), (fr_Hve_cl _ _ F), (fr_Hve_cl _ _ F'), V1, V2. split; [reflexivity|]. split; [reflexivity|exact N1].
Qed.

(** *** An airtight building *)
Lemma C59_l p w m : sound p -> vent_nonneg p -> st_infiltrationRate (pa_structure p) = 0 -> monthlyAll (map_params Fin p) (fin_weather w) = Ok m ->
  forall x, In x (mr_Hve_ht m) \/ In x (mr_Hve_cl m) -> exists h, x = Fin h /\ Rdblmax * (ph_rhoCpAir (pa_phys p) * 1000000) / 3600 <= h.
Proof.
  intros S V Z M x I. apply monthlyAll_run in M. destruct (run_fin _ _ _ S M) as (r & E & F).
  assert (G : forall t y, In y (ventilationCalc p w (oc_wk_day (mr_occ r)) t) -> Rdblmax * (ph_rhoCpAir (pa_phys p) * 1000000) / 3600 <= y).
  { intros t y J. apply vent_in in J. destruct J as (a & b & c & ->). rewrite coef_R, (rn_oc _ _ _ E). pose proof (mech_nonneg p S V) as MN. pose proof (vn_rho p V).
    unfold Rdiv. apply Rmult_le_compat_r; [lra|]. apply Rmult_le_compat_r; [lra|]. unfold infiltration, sdiv. rewrite Z, !zn_R. ops. rewrite Reqb_true by reflexivity.
    pose proof (Rmax_l (stackFlow p a c) (windFlow p b)). pose proof (stack_nonneg p a c). pose proof (Rmax_l 0 (- flowDifference p)). change (@ndblmax R R_num) with Rdblmax. lra. }
  rewrite (fr_Hve_ht _ _ F), (fr_Hve_cl _ _ F) in I. destruct I as [I|I]; apply in_map_iff in I; destruct I as (h & <- & I); exists h; (split; [reflexivity|]).
  - rewrite (rn_Hve_ht _ _ _ E) in I. exact (G _ _ I).
  - rewrite (rn_Hve_cl _ _ _ E) in I. exact (G _ _ I).
Qed.

(** *** Both engines *)
Lemma C33_l p tbl h d sc hs he ds de : st_floorArea (pa_structure p) <> 0 -> whole_schedule (pa_population p) hs he ds de -> clock_schedule hs he ds de -> (hs <= h <= he)%Z -> (0 <= d < 7)%Z ->
  populateSchedules (map_params Fin p) = Ok tbl -> sched_at tbl h d = Ok sc ->
  exists hourly monthly, ventFlow (map_params Fin p) sc = Fin hourly /\ supplyPerArea (map_params Fin p) = Fin monthly /\ hourly = 1296 / 100 * monthly /\
    monthly = ve_supplyRate (pa_ventilation p) / st_floorArea (pa_structure p) / (36 / 10).
Proof.
  intros A (W1 & W2 & W3 & W4) (C1 & C2 & C3 & C4) H D P Q. unfold populateSchedules, cast_int in P. cbn [map_params pa_population map_population po_daysStart po_daysEnd po_hoursStart po_hoursEnd] in P.
  rewrite W1, W2, W3, W4, !trunc_Z in P by lia. cbn [obind] in P. apply ok_inj in P. subst tbl. rewrite sched_at_ok in Q by lia. apply ok_inj in Q. subst sc.
  exists (ve_supplyRate (pa_ventilation p) * (36 / 10) / st_floorArea (pa_structure p)), (supplyPerArea p). split; [|split; [now apply supply_fin|]].
  - unfold ventFlow, sched_cell. cbn [sc_vent map_params pa_structure map_structure st_floorArea pa_ventilation map_ventilation ve_supplyRate].
    destruct (Z.leb_spec hs h); [|lia]. destruct (Z.leb_spec h he); [|lia]. cbn [andb]. rewrite lit_fin, mul_fin, div_fin' by exact A. reflexivity.
  - rewrite supply_R. split; [field; exact A|reflexivity].
Qed.
Lemma C33_refuted_l : exists p tbl sc hourly monthly, 0 < st_floorArea (pa_structure p) /\ whole_schedule (pa_population p) 8 17 1 5 /\
  populateSchedules (map_params Fin p) = Ok tbl /\ sched_at tbl 12 3 = Ok sc /\ ventFlow (map_params Fin p) sc = Fin hourly /\ supplyPerArea (map_params Fin p) = Fin monthly /\ hourly <> monthly.
Proof.
  set (p := set_supply (with_population monthlyOffice (week_schedule 8 17 1 5)) 36). assert (A : st_floorArea (pa_structure p) = st_floorArea (pa_structure (@monthlyOffice R _))) by reflexivity.
  pose proof office_area as OA. 
  assert (P : exists tbl sc, populateSchedules (map_params Fin p) = Ok tbl /\ sched_at tbl 12 3 = Ok sc).
  { unfold populateSchedules, cast_int. cbn [p set_supply with_population map_params pa_population map_population week_schedule po_daysStart po_daysEnd po_hoursStart po_hoursEnd].
    rewrite !trunc_Z by lia. cbn [obind]. do 2 eexists. split; [reflexivity|]. apply sched_at_ok; lia. }
  destruct P as (tbl & sc & P & Q). destruct (C33_l p tbl 12 3 sc 8 17 1 5) as (a & b & X & Y & Z1 & Z2); try assumption; try lia; [rewrite A; lra|apply week_schedule_whole|repeat split; lia|].
  exists p, tbl, sc, a, b. split; [rewrite A; exact OA|]. split; [apply week_schedule_whole|]. do 4 (split; [assumption|]). rewrite Z1. intros C. assert (B : 0 < b).
  { rewrite Z2, A. change (ve_supplyRate (pa_ventilation p)) with 36. unfold Rdiv at 1. apply Rmult_lt_0_compat; [|lra]. apply Rmult_lt_0_compat; [lra|now apply Rinv_0_lt_compat]. }
  lra.
Qed.
