(** Occupied hours counted by the two engines. *)
From Coq Require Import Reals Lra Psatz ZArith List Bool Lia.
From Verif Require Import Base Num Xr M_Params M_Hourly M_Monthly M_Map L_Xr L_HourlyShape L_HourlyFin2 L_Office S_Calendar S_Schedule L_Monthly.
Import ListNotations.
Open Scope R_scope.

Definition cellZ (hs he ds de h d : Z) : Z :=
  if ((Z.leb hs h && Z.leb h he) && (Z.leb ds d && Z.leb d de))%bool then 1%Z else 0%Z.
Definition cellsZ (hs he ds de : Z) : list Z := concat (map (fun h => map (cellZ hs he ds de h) (zrange 0 7)) (zrange 0 24)).
Definition weekZ (hs he ds de : Z) : Z :=
  ((if he - hs <? 0 then he - hs + 24 else he - hs) * (if de - ds + 1 <? 0 then de - ds + 1 + 7 else de - ds + 1))%Z.
Definition countZ hs he ds de : Z := fold_left Z.add (cellsZ hs he ds de) 0%Z.
Definition agreeZ (hs he ds de : Z) : bool := ((de <? ds) && ((hs =? he) || (de =? ds - 1)))%Z.

Lemma all_schedules : forallb (fun hs => forallb (fun he => forallb (fun ds => forallb (fun de =>
  Bool.eqb (Z.eqb (countZ hs he ds de) (weekZ hs he ds de)) (agreeZ hs he ds de)) (zrange 0 7)) (zrange 0 7)) (zrange 0 24)) (zrange 0 24) = true.
Proof. vm_compute. reflexivity. Qed.
Lemma in_zrange0 n z : (0 <= z < n)%Z -> In z (zrange 0 n).
Proof. intros H. unfold zrange. apply in_map_iff. exists (Z.to_nat z). split; [lia|]. apply in_seq. lia. Qed.
Lemma count_agree hs he ds de : clock_schedule hs he ds de ->
  (countZ hs he ds de = weekZ hs he ds de <-> (de < ds)%Z /\ (hs = he \/ de = ds - 1)%Z).
Proof.
  intros (H1 & H2 & H3 & H4). pose proof all_schedules as A.
  rewrite forallb_forall in A. specialize (A hs (in_zrange0 24 hs ltac:(lia))). rewrite forallb_forall in A. specialize (A he (in_zrange0 24 he ltac:(lia))).
  rewrite forallb_forall in A. specialize (A ds (in_zrange0 7 ds ltac:(lia))). rewrite forallb_forall in A. specialize (A de (in_zrange0 7 de ltac:(lia))).
  apply eqb_prop in A. rewrite <- Z.eqb_eq, A. unfold agreeZ. rewrite andb_true_iff, orb_true_iff, Z.ltb_lt, !Z.eqb_eq. reflexivity.
Qed.

Lemma trunc_Z z : (0 <= z <= 23)%Z -> ntrunc (Fin (IZR z)) = Some z.
Proof. intros H. cbn. apply Rtoint_IZR. change int_max with 2147483647%Z. lia. Qed.

Lemma fold_cells (l : list Z) : forall a, fold_left nadd (map (fun z => Fin (IZR z)) l) (Fin (IZR a)) = Fin (IZR (fold_left Z.add l a)).
Proof. induction l as [|x l IH]; intros a; cbn [map fold_left]; [reflexivity|]. rewrite <- IH. f_equal. cbn. now rewrite plus_IZR. Qed.

Lemma hourly_count p hs he ds de : whole_schedule (pa_population p) hs he ds de -> clock_schedule hs he ds de ->
  bu_elecApplianceOcc (pa_building p) = 1 -> bu_elecApplianceUnocc (pa_building p) = 0 ->
  exists tbl, populateSchedules (map_params Fin p) = Ok tbl /\ accumulate (map sc_intEquip (concat tbl)) = Fin (IZR (countZ hs he ds de)).
Proof.
  intros (W1 & W2 & W3 & W4) (H1 & H2 & H3 & H4) B1 B2. unfold populateSchedules, cast_int.
  cbn [map_params pa_population map_population po_daysStart po_daysEnd po_hoursStart po_hoursEnd].
  rewrite W1, W2, W3, W4, !trunc_Z by lia. cbn [obind]. eexists. split; [reflexivity|].
  rewrite concat_map, map_map. unfold countZ, accumulate.
  change (@zn xr _ 0) with (Fin (Rlit 0 1)). replace (Rlit 0 1) with (IZR 0) by (unfold Rlit; lra). rewrite <- fold_cells.
  f_equal. unfold cellsZ. rewrite concat_map, map_map. f_equal. apply map_ext. intros h. rewrite !map_map. apply map_ext. intros d.
  unfold sched_cell, cellZ. cbn [sc_intEquip map_params pa_building map_building bu_elecApplianceOcc bu_elecApplianceUnocc]. rewrite B1, B2.
  destruct (_ && _)%bool; reflexivity.
Qed.
Lemma monthly_count po hs he ds de : whole_schedule po hs he ds de ->
  oc_wk_day (scheduleAndOccupancy (map_population Fin po)) = Fin (IZR (weekZ hs he ds de) / 168).
Proof. intros W. rewrite schedule_fin. cbn [oc_wk_day]. unfold fWkDay, weekZ. now rewrite (hoursPerDay_Z po _ _ _ _ W), (daysPerWeek_Z po _ _ _ _ W), mult_IZR. Qed.

Lemma C11_l p hs he ds de : whole_schedule (pa_population p) hs he ds de -> clock_schedule hs he ds de ->
  bu_elecApplianceOcc (pa_building p) = 1 -> bu_elecApplianceUnocc (pa_building p) = 0 ->
  exists tbl hourly monthly, populateSchedules (map_params Fin p) = Ok tbl /\
    accumulate (map sc_intEquip (concat tbl)) = Fin hourly /\
    oc_wk_day (scheduleAndOccupancy (map_population Fin (pa_population p))) = Fin (monthly / 168) /\
    (hourly = monthly <-> (de < ds)%Z /\ (hs = he \/ de = ds - 1)%Z).
Proof.
  intros W C B1 B2. destruct (hourly_count p hs he ds de W C B1 B2) as (tbl & E & S). exists tbl. do 2 eexists.
  split; [exact E|]. split; [exact S|]. split; [apply (monthly_count _ _ _ _ _ W)|]. rewrite <- (count_agree hs he ds de C). split; [apply eq_IZR|congruence].
Qed.

(** A schedule, and a building with it. *)
Definition week_schedule (hs he ds de : Z) : population_t R :=
  {| po_hoursEnd := IZR he; po_hoursStart := IZR hs; po_daysEnd := IZR de; po_daysStart := IZR ds;
     po_densityOcc := 25; po_densityUnocc := 150; po_heatGainPerPerson := 120 |}.
Lemma week_schedule_whole hs he ds de : whole_schedule (week_schedule hs he ds de) hs he ds de.
Proof. repeat split. Qed.
Lemma C22_refuted_l : exists po s, (0 <= s <= 6)%Z /\ whole_schedule po 8 17 s (last_day s 7) /\
  daysPerWeek (map_population Fin po) = Fin 0 /\ oc_wk_day (scheduleAndOccupancy (map_population Fin po)) = Fin 0 /\
  exists b, oc_wk_nt (scheduleAndOccupancy (map_population Fin po)) = Fin b /\ b < 0.
Proof.
  exists (week_schedule 8 17 1 (last_day 1 7)), 1%Z. pose proof (week_schedule_whole 8 17 1 (last_day 1 7)) as W.
  split; [lia|]. split; [exact W|].
  split; [apply (C22_all_week_l _ 8 17 1); [lia|exact W]|]. rewrite schedule_fin. cbn [oc_wk_day oc_wk_nt].
  rewrite (hoursPerDay_Z _ _ _ _ _ W), (daysPerWeek_Z _ _ _ _ _ W). unfold fWkDay, fWkNt. cbn -[IZR Rmult Rdiv].
  split; [f_equal; lra|]. eexists. split; [reflexivity|]. lra.
Qed.
Lemma C21_refuted_l : exists po h, whole_schedule po 9 17 1 5 /\ (h < 24)%nat /\ open_at 9 17 (Z.of_nat h) = false /\
  nth_error (oc_clockOcc (scheduleAndOccupancy (map_population Fin po))) h = Some (Fin 1).
Proof.
  exists (week_schedule 9 17 1 5), 7%nat. pose proof (week_schedule_whole 9 17 1 5) as W. split; [exact W|]. split; [lia|]. split; [reflexivity|].
  now rewrite (mask_value _ 7 _ _ _ _ W) by lia.
Qed.
