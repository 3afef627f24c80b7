(** Lighting, hot water and appliances in the monthly table. *)
From Coq Require Import Reals Lra Psatz ZArith List Bool Lia.
From Verif Require Import Base Num Xr M_Params M_Hourly M_Monthly M_Map L_Xr L_HourlyShape L_HourlyFin2 L_Office S_Calendar S_Schedule S_Results S_Monthly
  S_Physical L_Monthly L_Monthly2 L_Monthly3 E_SmallOffice E_Monthly.
Import ListNotations.
Open Scope R_scope.

Ltac numR := repeat progress (unfold zn; cbn [lit R_num]; unfold Rlit).
Lemma zn_R z : @zn R _ z = IZR z.
Proof. numR. lra. Qed.
Lemma lt_R a b : @nlt R _ a b = Rltb a b. Proof. reflexivity. Qed.
Ltac ops := cbn [nadd nsub nmul ndiv nopp nabs nlt neqb npow nexp ndblmin ndblmax R_num]; rewrite ?nmax_R, ?nmin_R.

Lemma divs_R v (s : R) : s <> 0 -> divs v s = map (fun x => x / s) v.
Proof. intros H. apply map_ext. intros x. now apply sdiv_R. Qed.
Lemma scale_R v (s : R) : scale v s = map (fun x => x * s) v.
Proof. reflexivity. Qed.

(** *** Lighting *)
Definition lightHoursD (p : params_t R) : R := lightDayHours (pa_lighting p) (pa_population p).
Definition lightHoursN (p : params_t R) : R := lightNightHours (pa_lighting p) (pa_population p).
Definition lightTotal (p : params_t R) : R :=
  st_floorArea (pa_structure p) * li_densityOcc (pa_lighting p) * bu_constantIllumination (pa_building p) * bu_lightingOccupancySensor (pa_building p)
    * (lightHoursD p * li_dimmingFraction (pa_lighting p) + lightHoursN p) / 1000
  + st_floorArea (pa_structure p) * li_densityUnocc (pa_lighting p) * (8760 - lightHoursD p - lightHoursN p) / 1000.
Lemma lightDay_fin p : lightDayHours (pa_lighting (map_params Fin p)) (pa_population (map_params Fin p)) = Fin (lightHoursD p).
Proof.
  unfold lightHoursD, lightDayHours. cbn [map_params pa_lighting pa_population]. rewrite daysPerWeek_fin.
  cbn [map_lighting map_population li_n_day_end li_n_day_start li_n_weeks po_hoursEnd po_hoursStart].
  rewrite min_fin, max_fin, sub_fin, !zn_fin, add_fin, lt_fin, if_fin, !mul_fin. reflexivity.
Qed.
Lemma lightNight_fin p : lightNightHours (pa_lighting (map_params Fin p)) (pa_population (map_params Fin p)) = Fin (lightHoursN p).
Proof.
  unfold lightHoursN, lightNightHours. cbn [map_params pa_lighting pa_population]. rewrite daysPerWeek_fin.
  cbn [map_lighting map_population li_n_day_end li_n_day_start li_n_weeks po_hoursEnd po_hoursStart].
  rewrite !sub_fin, !zn_fin, !max_fin, add_fin, !mul_fin. reflexivity.
Qed.
Lemma light_tot_fin p hrs : lu_tot (lightingEnergyUse (map_params Fin p) hrs) = Fin (lightTotal p).
Proof.
  unfold lightingEnergyUse. cbn [lu_tot]. rewrite lightDay_fin, lightNight_fin. cbn [map_params pa_structure pa_lighting pa_building pa_population].
  cbn [map_structure map_lighting map_building st_floorArea li_densityOcc li_densityUnocc bu_constantIllumination bu_lightingOccupancySensor li_dimmingFraction].
  unfold hoursInYear. rewrite !zn_fin, !zn_R. repeat progress rewrite ?mul_fin, ?add_fin, ?sub_fin. rewrite !div_fin' by lra. rewrite add_fin. unfold lightTotal. ops. reflexivity.
Qed.
Lemma light_month_fin p hrs : lu_month (lightingEnergyUse (map_params Fin p) hrs) = map Fin (scale monthFractionOfYear (lightTotal p)).
Proof.
  assert (E : lu_month (lightingEnergyUse (map_params Fin p) hrs) = scale monthFractionOfYear (lu_tot (lightingEnergyUse (map_params Fin p) hrs))) by reflexivity.
  rewrite E, light_tot_fin, fraction_fin. apply scale_fin.
Qed.
Lemma fractions_close m : (m < 12)%nat -> exists f, nth_error (@monthFractionOfYear R _) m = Some f /\ Rabs (f - IZR (nth m days_in_month 0%Z) / 365) <= 1 / 10 ^ 15 /\ 0 <= f.
Proof.
  intros H. do 12 (destruct m as [|m]; [eexists; split; [reflexivity|]; cbn [nth days_in_month lit R_num]; unfold Rlit; split; [apply Rabs_le; lra|lra]|]). lia.
Qed.
Lemma fractions_sum : Rsum (@monthFractionOfYear R _) = 1 + 2 / 10 ^ 16.
Proof. unfold Rsum, monthFractionOfYear. cbn [map fold_right lit R_num]. unfold Rlit. lra. Qed.
Lemma light_series p w rows : 0 < st_floorArea (pa_structure p) -> simulateMonthly (map_params Fin p) w = Ok rows ->
  is_series elec_int_lights rows (map (fun f => Fin (lightTotal p / st_floorArea (pa_structure p) * f)) monthFractionOfYear).
Proof.
  intros HA H. destruct (simulateMonthly_cases _ _ _ H) as (m & R & _ & S').
  specialize (S' elec_int_lights _ eq_refl). rewrite (rn_lu _ _ _ R), light_month_fin in S'. cbn [map_params pa_structure map_structure st_floorArea] in S'.
  rewrite divs_fin, divs_R, scale_R, !map_map in S' by lra. replace (map (fun f => Fin (lightTotal p / st_floorArea (pa_structure p) * f)) monthFractionOfYear) with
    (map (fun x => Fin (x * lightTotal p / st_floorArea (pa_structure p))) monthFractionOfYear); [exact S'|]. apply map_ext. intros x. f_equal. field. lra.
Qed.
Definition light_split (rows : list (list xr)) (annual : R) : Prop := exists fr, length fr = 12%nat /\ Rsum fr = 1 + 2 / 10 ^ 16 /\
    (forall m, (m < 12)%nat -> exists f, nth_error fr m = Some f /\ Rabs (f - IZR (nth m days_in_month 0%Z) / 365) <= 1 / 10 ^ 15) /\
    is_series elec_int_lights rows (map (fun f => Fin (annual * f)) fr).
Lemma light_split_l p w rows : 0 < st_floorArea (pa_structure p) -> simulateMonthly (map_params Fin p) w = Ok rows ->
  light_split rows (lightTotal p / st_floorArea (pa_structure p)).
Proof.
  intros HA H. exists monthFractionOfYear. split; [reflexivity|]. split; [exact fractions_sum|]. split.
  - intros m M. destruct (fractions_close m M) as (f & A & B & _). eauto.
  - now apply (light_series p w).
Qed.
Lemma C24_split_l p w rows : 0 < st_floorArea (pa_structure p) -> simulateMonthly (map_params Fin p) w = Ok rows ->
  exists annual fr, length fr = 12%nat /\ Rsum fr = 1 + 2 / 10 ^ 16 /\
    (forall m, (m < 12)%nat -> exists f, nth_error fr m = Some f /\ Rabs (f - IZR (nth m days_in_month 0%Z) / 365) <= 1 / 10 ^ 15) /\
    is_series elec_int_lights rows (map (fun f => Fin (annual * f)) fr).
Proof. intros HA H. exists (lightTotal p / st_floorArea (pa_structure p)). exact (light_split_l p w rows HA H). Qed.
Lemma light_hours p : day_schedule p -> let d := (po_daysEnd (pa_population p) - po_daysStart (pa_population p) + 1) * li_n_weeks (pa_lighting p) in
  0 <= lightHoursD p /\ 0 <= lightHoursN p /\ lightHoursD p + lightHoursN p = (po_hoursEnd (pa_population p) - po_hoursStart (pa_population p)) * d /\
  lightHoursD p + lightHoursN p <= 8736.
Proof.
  intros [H1 H2 H3 H4 H5 H6] d. unfold lightHoursD, lightHoursN, lightDayHours, lightNightHours, daysPerWeek. rewrite !zn_R. ops.
  rewrite (Rltb_false (_ - _ + 1) 0) by lra.
  set (s := po_hoursStart (pa_population p)) in *. set (e := po_hoursEnd (pa_population p)) in *. set (a := li_n_day_start (pa_lighting p)) in *.
  set (b := li_n_day_end (pa_lighting p)) in *. set (n := po_daysEnd (pa_population p) - po_daysStart (pa_population p) + 1) in *. set (k := li_n_weeks (pa_lighting p)) in *.
  assert (0 <= Rmin b e - Rmax s a) as P by (unfold Rmin, Rmax; destruct (Rle_dec b e), (Rle_dec s a); lra).
  rewrite (Rltb_false (Rmin b e - Rmax s a) 0) by lra.
  assert (Q : Rmin b e - Rmax s a + (Rmax (a - s) 0 + Rmax (e - b) 0) = e - s).
  { unfold Rmin, Rmax. destruct (Rle_dec b e), (Rle_dec s a), (Rle_dec (a - s) 0), (Rle_dec (e - b) 0); lra. }
  assert (0 <= Rmax (a - s) 0 + Rmax (e - b) 0) as M by (pose proof (Rmax_r (a - s) 0); pose proof (Rmax_r (e - b) 0); lra).
  set (x := Rmin b e - Rmax s a) in *. set (y := Rmax (a - s) 0 + Rmax (e - b) 0) in *. clearbody x y.
  assert (0 <= n * k) by (apply Rmult_le_pos; lra). assert (n * k <= 364) by (apply Rle_trans with (7 * 52); [apply Rmult_le_compat; lra|lra]).
  assert (E : x * n * k + y * n * k = (e - s) * (n * k)) by (rewrite <- Q; ring).
  split; [rewrite Rmult_assoc; apply Rmult_le_pos; lra|]. split; [rewrite Rmult_assoc; apply Rmult_le_pos; lra|]. split; [exact E|]. rewrite E.
  apply Rle_trans with (24 * 364); [apply Rmult_le_compat; lra|lra].
Qed.
Lemma light_hours_spec p : day_schedule p -> lightHoursD p = daylit_hours p * open_days p /\ lightHoursN p = (open_hours p - daylit_hours p) * open_days p.
Proof.
  intros H. destruct (light_hours p H) as (_ & _ & E & _). destruct H as [H1 H2 H3 H4 H5 H6].
  assert (D : lightHoursD p = daylit_hours p * open_days p).
  { unfold lightHoursD, lightDayHours, daysPerWeek, daylit_hours, open_days. rewrite !zn_R. ops. rewrite (Rltb_false (_ - _ + 1) 0) by lra.
    rewrite Rltb_false; [rewrite (Rmin_comm (li_n_day_end _)); ring|]. unfold Rmin, Rmax. destruct (Rle_dec _ _), (Rle_dec _ _); lra. }
  split; [exact D|]. unfold open_hours, open_days in *. rewrite D in E. lra.
Qed.
Lemma C24_hours_l p w rows : 0 < st_floorArea (pa_structure p) -> day_schedule p -> simulateMonthly (map_params Fin p) w = Ok rows ->
  let tD := daylit_hours p * open_days p in let tN := (open_hours p - daylit_hours p) * open_days p in let tU := 8760 - open_hours p * open_days p in
  0 <= tD /\ 0 <= tN /\ 0 <= tU /\ tD + tN + tU = 8760 /\
  exists fr, length fr = 12%nat /\ Rsum fr = 1 + 2 / 10 ^ 16 /\
    (forall m, (m < 12)%nat -> exists f, nth_error fr m = Some f /\ Rabs (f - IZR (nth m days_in_month 0%Z) / 365) <= 1 / 10 ^ 15) /\
    is_series elec_int_lights rows (map (fun f => Fin (light_year p tD tN tU * f)) fr).
Proof.
  intros HA H R tD tN tU. destruct (light_hours p H) as (A & B & C & D). destruct (light_hours_spec p H) as [E F]. fold tD in E. fold tN in F.
  assert (C' : lightHoursD p + lightHoursN p = open_hours p * open_days p) by exact C.
  rewrite E in A. rewrite F in B. rewrite E, F in *. repeat split; try assumption; try (unfold tU; lra).
  replace (light_year p tD tN tU) with (lightTotal p / st_floorArea (pa_structure p)); [exact (light_split_l p w rows HA R)|].
  unfold lightTotal, light_year. rewrite E, F. unfold tU. rewrite <- C'. field. lra.
Qed.
Lemma series_forall {A} k rows (v : list A) (P : A -> Prop) : is_series k rows v -> (forall x, In x v -> P x) -> forall row x, In row rows -> nth_error row k = Some x -> P x.
Proof.
  intros H. induction H as [|row x rows v E F IH]; intros Q r y I Y; [destruct I|]. destruct I as [<-|I].
  - rewrite E in Y. injection Y as <-. apply Q. now left.
  - apply (IH (fun z J => Q z (or_intror J)) r y I Y).
Qed.
(** "Every entry of end use [k] is a finite number satisfying [P]." *)
Lemma series_fin k rows v (P : R -> Prop) : is_series k rows (map Fin v) -> (forall x, In x v -> P x) ->
  forall row x, In row rows -> nth_error row k = Some x -> exists r, x = Fin r /\ P r.
Proof. intros H Q. apply (series_forall k rows _ (fun x => exists r, x = Fin r /\ P r) H). intros x I. apply in_map_iff in I. destruct I as (r & <- & J). eauto. Qed.

Lemma C24_nonneg_l p w rows : 0 < st_floorArea (pa_structure p) -> day_schedule p -> light_nonneg p -> simulateMonthly (map_params Fin p) w = Ok rows ->
  forall row x, In row rows -> nth_error row elec_int_lights = Some x -> exists r, x = Fin r /\ 0 <= r.
Proof.
  intros HA HS [N1 N2 N3 N4 N5] H. destruct (simulateMonthly_cases _ _ _ H) as (m & R & _ & S').
  specialize (S' elec_int_lights _ eq_refl). rewrite (rn_lu _ _ _ R), light_month_fin in S'. cbn [map_params pa_structure map_structure st_floorArea] in S'.
  rewrite divs_fin, divs_R, scale_R in S' by lra. apply (series_fin _ _ _ _ S'). intros x I. rewrite map_map in I. apply in_map_iff in I. destruct I as (f & <- & I).
  destruct (light_hours p HS) as (A & B & C & D).
  assert (0 <= lightTotal p).
  { unfold lightTotal. apply Rplus_le_le_0_compat; unfold Rdiv; (apply Rmult_le_pos; [|lra]).
    - repeat apply Rmult_le_pos; try lra. apply Rplus_le_le_0_compat; [apply Rmult_le_pos|]; assumption.
    - repeat apply Rmult_le_pos; lra. }
  assert (0 <= f). { unfold monthFractionOfYear in I. apply in_map_iff in I. destruct I as (z & <- & I). cbn [lit R_num]. unfold Rlit, Rdiv. apply Rmult_le_pos; [|lra].
    apply (IZR_le 0). cbn in I. lia. }
  unfold Rdiv. apply Rmult_le_pos; [now apply Rmult_le_pos|]. apply Rlt_le, Rinv_0_lt_compat, HA.
Qed.

(** *** Evening opening times: 20 to 23 every day. *)
Definition eveningBuilding : params_t R :=
  with_lighting (with_population monthlyOffice (week_schedule 20 23 0 6)) (lamps (pa_lighting monthlyOffice) 0 10).
Lemma office_defined (p : params_t R) : pa_structure p = pa_structure monthlyOffice -> bu_bem (pa_building p) = 1 ->
  exists rows, simulateMonthly (map_params Fin p) mildYear = Ok rows.
Proof.
  intros E B. apply C18_monthly_defined_l. cbn [map_params pa_structure]. rewrite E. split.
  { intros v I. cbn in I. repeat (destruct I as [<-|I]; [reflexivity|]). destruct I. }
  split. { cbn. repeat split; intros r I; repeat (destruct I as [<-|I]; [reflexivity|]); destruct I. }
  split. { intros row I. exists (zn 200). cbn in I. split; [repeat (destruct I as [<-|I]; [cbn; tauto|]); destruct I|]. rewrite !zn_fin, eqb_fin. apply Reqb_false. rewrite !zn_R. lra. }
  split. { intros x I. left. change (st_windowSDF _) with (map Fin (repeat (@zn R _ 1) 9)) in I. rewrite <- repeat_fin in I. apply repeat_spec in I. subst x. rewrite zn_R. apply (trunc_Z 1). lia. }
  exists 1%Z. cbn [map_params pa_building map_building bu_bem]. rewrite B. apply (trunc_Z 1). lia.
Qed.
Lemma evening_hours : lightHoursD eveningBuilding = 22 * 7 * 50 /\ lightHoursN eveningBuilding = 5 * 7 * 50.
Proof.
  unfold lightHoursD, lightHoursN, lightDayHours, lightNightHours, daysPerWeek.
  cbn [eveningBuilding with_lighting with_population pa_lighting pa_population lamps week_schedule monthlyOffice with_structure smallOffice
    li_n_day_end li_n_day_start li_n_weeks po_hoursEnd po_hoursStart po_daysEnd po_daysStart]. rewrite !zn_R. ops.
  rewrite (Rmin_left 18 23), (Rmax_left 20 7), (Rmax_right (7 - 20) 0), (Rmax_left (23 - 18) 0) by lra.
  rewrite (Rltb_true (18 - 20)), (Rltb_false (6 - 0 + 1)) by lra. split; lra.
Qed.
Lemma evening_total : lightTotal eveningBuilding / st_floorArea (pa_structure eveningBuilding) = - (69 / 10).
Proof.
  unfold lightTotal. destruct evening_hours as [-> ->].
  cbn [eveningBuilding with_lighting with_population pa_lighting pa_population pa_structure pa_building lamps monthlyOffice with_structure smallOffice shaded
    st_floorArea li_densityOcc li_densityUnocc bu_constantIllumination bu_lightingOccupancySensor li_dimmingFraction].
  unfold zn. cbn [lit R_num]. unfold Rlit. field.
Qed.
Lemma C24_refuted_l : exists p w rows, light_nonneg p /\ 0 < st_floorArea (pa_structure p) /\ whole_schedule (pa_population p) 20 23 0 6 /\
  simulateMonthly (map_params Fin p) w = Ok rows /\ forall row, In row rows -> exists r, nth_error row elec_int_lights = Some (Fin r) /\ r < 0.
Proof.
  assert (HA : 0 < st_floorArea (pa_structure eveningBuilding)).
  { cbn [eveningBuilding with_lighting with_population pa_structure monthlyOffice with_structure smallOffice shaded st_floorArea]. cbn [lit R_num]. unfold Rlit. lra. }
  destruct (office_defined eveningBuilding eq_refl) as [rows E]. { cbn [eveningBuilding with_lighting with_population pa_building monthlyOffice with_structure smallOffice bu_bem]. apply zn_R. }
  exists eveningBuilding, mildYear, rows. split; [|split; [exact HA|split; [apply week_schedule_whole|split; [exact E|]]]].
  - constructor; cbn [eveningBuilding with_lighting with_population pa_lighting pa_building lamps monthlyOffice with_structure smallOffice
      li_densityOcc li_densityUnocc bu_constantIllumination bu_lightingOccupancySensor li_dimmingFraction]; rewrite ?zn_R; lra.
  - pose proof (light_series _ _ _ HA E) as S. rewrite evening_total in S. intros row I.
    destruct (nth_error row elec_int_lights) as [x|] eqn:Ex.
    + destruct (series_forall _ _ _ (fun x => exists r, x = Fin r /\ r < 0) S) with (row := row) (x := x) as (r & -> & L); auto; [|eauto].
      intros y J. apply in_map_iff in J. destruct J as (f & <- & J). eexists. split; [reflexivity|].
      unfold monthFractionOfYear in J. apply in_map_iff in J. destruct J as (z & <- & J). cbn [lit R_num]. unfold Rlit.
      assert (1 <= IZR z) by (apply IZR_le; cbn in J; lia). lra.
    + exfalso. apply nth_error_None in Ex. destruct (simulateMonthly_cases _ _ _ E) as (m & _ & (_ & W) & _). rewrite Forall_forall in W. specialize (W row I).
      rewrite W in Ex. unfold elec_int_lights in Ex. lia.
Qed.

(** *** The two counts of occupied hours of an ordinary office differ. *)
Lemma C11_refuted_l : exists (p : params_t R) tbl hourly monthly, whole_schedule (pa_population p) 8 17 1 5 /\
  populateSchedules (map_params Fin p) = Ok tbl /\ accumulate (map sc_intEquip (concat tbl)) = Fin hourly /\
  oc_wk_day (scheduleAndOccupancy (map_population Fin (pa_population p))) = Fin (monthly / 168) /\ hourly <> monthly.
Proof.
  set (p := with_building (with_population smallOffice (week_schedule 8 17 1 5)) (mkBuilding 1 1 1 0 0 0 1 0)).
  destruct (C11_l p 8 17 1 5 (week_schedule_whole 8 17 1 5)) as (tbl & a & b & A & B & C & D); try reflexivity; [repeat split; lia|].
  exists p, tbl, a, b. split; [apply week_schedule_whole|]. split; [exact A|]. split; [exact B|]. split; [exact C|]. intros E. apply D in E. lia.
Qed.
