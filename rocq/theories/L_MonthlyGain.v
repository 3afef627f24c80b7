(** Which part of the month's sun falls on which hours of the week. *)
From Coq Require Import Reals Lra Psatz ZArith List Bool Lia.
From Verif Require Import Base Num Xr M_Params M_Monthly M_Map L_Xr L_HourlyShape L_HourlyFin2 S_Calendar S_Schedule S_Results S_Monthly
  S_MonthlySound S_MonthlyHeat S_Physical L_Monthly L_Monthly2 L_Monthly3 L_Monthly4 L_Monthly5 L_MonthlyFin L_MonthlyFin2 E_SmallOffice E_Monthly.
Import ListNotations.
Open Scope R_scope.

(** *** A row times a mask *)
Definition sel_from (sel : nat -> bool) (a : nat) (row : list R) : list R := map snd (filter (fun q => sel (fst q)) (combine (seq a (length row)) row)).
Definition mask_from (sel : nat -> bool) (a n : nat) : list R := map (fun k => if sel k then 1 else 0) (seq a n).
Lemma row_mask sel row : forall a, Rsum (vmul row (mask_from sel a (length row))) = Rsum (sel_from sel a row).
Proof.
  induction row as [|x row IH]; intros a; [reflexivity|].
  change (vmul (x :: row) (mask_from sel a (length (x :: row)))) with ((x * if sel a then 1 else 0) :: vmul row (mask_from sel (S a) (length row))).
  unfold sel_from. cbn [length seq combine filter fst]. destruct (sel a).
  - change (x * 1 + Rsum (vmul row (mask_from sel (S a) (length row))) = x + Rsum (sel_from sel (S a) row)). rewrite IH. lra.
  - change (x * 0 + Rsum (vmul row (mask_from sel (S a) (length row))) = Rsum (sel_from sel (S a) row)). rewrite IH. lra.
Qed.
Lemma mask_count sel row : forall a, Rsum (mask_from sel a (length row)) = INR (length (sel_from sel a row)).
Proof.
  induction row as [|x row IH]; intros a; [reflexivity|].
  change (mask_from sel a (length (x :: row))) with ((if sel a then 1 else 0) :: mask_from sel (S a) (length row)).
  unfold sel_from. cbn [length seq combine filter fst]. destruct (sel a).
  - cbn [map]. change (1 + Rsum (mask_from sel (S a) (length row)) = INR (S (length (sel_from sel (S a) row)))). rewrite S_INR, IH. lra.
  - change (0 + Rsum (mask_from sel (S a) (length row)) = INR (length (sel_from sel (S a) row))). rewrite IH. lra.
Qed.
Lemma clockMask_sel h (a b : R) : clockMask h a b = map (fun k => if in_window h k then a else b) (seq 0 24).
Proof.
  unfold clockMask, zrange. rewrite map_map. apply map_ext. intros k. unfold in_window, nle. rewrite !zn_R. ops. rewrite INR_IZR_INZ.
  replace (0 + Z.of_nat k)%Z with (Z.of_nat k) by lia.
  destruct (Rltb_spec 0 (IZR (Z.of_nat k) - 7)), (Reqb_spec 0 (IZR (Z.of_nat k) - 7)), (Rltb_spec (IZR (Z.of_nat k) - 7) h), (Rle_dec 7 (IZR (Z.of_nat k))), (Rlt_dec (IZR (Z.of_nat k)) (7 + h));
    cbn [orb andb]; try reflexivity; exfalso; lra.
Qed.
Lemma day_row h (row : list R) : length row = 24%nat -> rowProd row (clockMask h 1 0) / vsum (clockMask h 1 0) = day_mean h row.
Proof.
  intros L. unfold rowProd. change (accumulate ?x) with (vsum x). rewrite !vsum_R, clockMask_sel. change (map _ (seq 0 24)) with (mask_from (in_window h) 0 24).
  rewrite <- L, row_mask, mask_count. reflexivity.
Qed.
Lemma night_row h (row : list R) : length row = 24%nat -> rowProd row (clockMask h 0 1) / vsum (clockMask h 0 1) = night_mean h row.
Proof.
  intros L. unfold rowProd. change (accumulate ?x) with (vsum x). rewrite !vsum_R, clockMask_sel.
  replace (map (fun k => if in_window h k then 0 else 1) (seq 0 24)) with (mask_from (fun k => negb (in_window h k)) 0 24) by (apply map_ext; intros k; now destruct (in_window h k)).
  rewrite <- L, row_mask, mask_count. reflexivity.
Qed.

(** *** The means are not negative, and not both zero *)
Lemma sum_nonneg l : all_nonneg l -> 0 <= Rsum l.
Proof. induction l as [|x l IH]; intros P; [unfold Rsum; cbn; lra|]. change (0 <= x + Rsum l). pose proof (P x (or_introl eq_refl)). assert (all_nonneg l) by (intros y I; apply P; now right). specialize (IH H0). lra. Qed.
Lemma sum_pos l x : all_nonneg l -> In x l -> 0 < x -> 0 < Rsum l.
Proof.
  induction l as [|y l IH]; intros P I X; [destruct I|]. change (0 < y + Rsum l). assert (Q : all_nonneg l) by (intros z J; apply P; now right).
  pose proof (sum_nonneg l Q). destruct I as [->|I]; [lra|]. specialize (IH Q I X). pose proof (P y (or_introl eq_refl)). lra.
Qed.
Lemma mean_nonneg l : all_nonneg l -> 0 <= mean l.
Proof.
  intros P. unfold mean. destruct l as [|x l]; [unfold Rsum; cbn; unfold Rdiv; rewrite Rmult_0_l; lra|].
  apply Rmult_le_pos; [now apply sum_nonneg|]. apply Rlt_le, Rinv_0_lt_compat, lt_0_INR. cbn. lia.
Qed.
Lemma mean_pos l x : all_nonneg l -> In x l -> 0 < x -> 0 < mean l.
Proof.
  intros P I X. unfold mean. apply Rmult_lt_0_compat; [now apply (sum_pos l x)|]. apply Rinv_0_lt_compat, lt_0_INR. destruct l; [destruct I|cbn; lia].
Qed.
Lemma selected_in sel row x : In x (selected sel row) -> In x row.
Proof. unfold selected. intros I. apply in_map_iff in I. destruct I as ([k y] & <- & I). apply filter_In in I. destruct I as [I _]. now apply in_combine_r in I. Qed.
Lemma selected_or sel row x : In x row -> In x (selected sel row) \/ In x (selected (fun k => negb (sel k)) row).
Proof.
  intros I. apply In_nth_error in I. destruct I as [k I]. assert (L : (k < length row)%nat) by (apply nth_error_Some; congruence).
  assert (J : In (k, x) (combine (seq 0 (length row)) row)).
  { replace (k, x) with (nth k (combine (seq 0 (length row)) row) (O, 0)).
    - apply nth_In. rewrite combine_length, seq_length. lia.
    - rewrite combine_nth by apply seq_length. rewrite seq_nth by exact L. f_equal. now apply nth_error_nth. }
  unfold selected. destruct (sel k) eqn:E; [left|right]; apply in_map_iff; exists (k, x); (split; [reflexivity|]); apply filter_In; (split; [exact J|]); cbn [fst]; now rewrite E.
Qed.
Lemma sun_pos h row x : 0 < h < 24 -> all_nonneg row -> In x row -> x <> 0 -> 0 < sun_week h row.
Proof.
  intros H P I X. assert (D : all_nonneg (selected (in_window h) row)) by (intros y J; apply P; now apply selected_in in J).
  assert (N : all_nonneg (selected (fun k => negb (in_window h k)) row)) by (intros y J; apply P; now apply selected_in in J).
  assert (0 < x) by (pose proof (P x I); lra). pose proof (mean_nonneg _ D) as D0. pose proof (mean_nonneg _ N) as N0.
  unfold sun_week, day_mean, night_mean. apply Rmult_lt_0_compat; [lra|]. destruct (selected_or (in_window h) row x I) as [J|J].
  - pose proof (mean_pos _ x D J H0). assert (0 < h * mean (selected (in_window h) row)) by (apply Rmult_lt_0_compat; lra).
    assert (0 <= (24 - h) * mean (selected (fun k => negb (in_window h k)) row)) by (apply Rmult_le_pos; lra). lra.
  - pose proof (mean_pos _ x N J H0). assert (0 <= h * mean (selected (in_window h) row)) by (apply Rmult_le_pos; lra).
    assert (0 < (24 - h) * mean (selected (fun k => negb (in_window h k)) row)) by (apply Rmult_lt_0_compat; lra). lra.
Qed.
Lemma sun_split h d row : sun_work_day h d row + sun_week_night h d row + sun_weekend_day h d row + sun_weekend_night h d row = sun_week h row.
Proof. unfold sun_work_day, sun_week_night, sun_weekend_day, sun_weekend_night, sun_week. ring. Qed.

(** *** Month by month *)
Lemma mega_pos i : (i < 12)%nat -> 0 < month_megaseconds i.
Proof. intros H. unfold month_megaseconds. do 12 (destruct i as [|i]; [cbn [nth days_in_month]; lra|]). lia. Qed.
Lemma scale_at v (s : R) i x : nth_error v i = Some x -> nth_error (scale v s) i = Some (x * s).
Proof. intros H. unfold scale. rewrite nth_error_map, H. reflexivity. Qed.
Lemma mean_at m (v : list R) i row : nth_error m i = Some row -> nth_error (maskedMean m v) i = Some (rowProd row v / vsum v).
Proof. intros H. unfold maskedMean. rewrite nth_error_map, H. reflexivity. Qed.
Lemma breakdown_at po w b i row : 0 < day_length po < 24 -> full_tables w -> solarRadiationBreakdown (scheduleAndOccupancy po) w = Ok b -> nth_error (mw_mhEgh w) i = Some row ->
  0 < sun_week (day_length po) row ->
  let h := day_length po in let d := week_days po in
  nth_error (bd_wk_nt b) i = Some (sun_week_night h d row / sun_week h row) /\
  nth_error (bd_wke_day b) i = Some (sun_weekend_day h d row / sun_week h row) /\
  nth_error (bd_wke_nt b) i = Some (sun_weekend_night h d row / sun_week h row).
Proof.
  intros H F B I W. cbv zeta. unfold solarRadiationBreakdown in B. cbv zeta in B. destruct (omap _ _) as [dn| |]; [cbn [obind] in B|discriminate B|discriminate B].
  apply ok_inj in B. subst b. cbn [bd_wk_nt bd_wke_day bd_wke_nt].
  assert (LI : (i < 12)%nat). { destruct F as (_ & _ & (L & _) & _). rewrite <- L. apply nth_error_Some. congruence. }
  assert (LR : length row = 24%nat). { destruct F as (_ & _ & (_ & L) & _). apply L. now apply nth_error_In in I. }
  pose proof (mega_nth i LI) as M. pose proof (mega_pos i LI) as MP.
  unfold scheduleAndOccupancy. cbn [oc_wkOcc oc_wkUnocc oc_weOcc oc_weUnocc oc_clockOcc oc_clockUnocc]. unfold hoursInWeek. rewrite day_length_eq, week_days_eq, !zn_R. ops.
  set (h := day_length po) in *. set (d := week_days po) in *.
  pose proof (mean_at _ (clockMask h 1 0) _ _ I) as Eday. rewrite day_row in Eday by exact LR.
  pose proof (mean_at _ (clockMask h 0 1) _ _ I) as Ent. rewrite night_row in Ent by exact LR.
  pose proof (nth_zipw nmul _ _ _ _ _ Eday (scale_at _ (h * d / 168) _ _ M)) as X1.
  pose proof (nth_zipw nmul _ _ _ _ _ Ent (scale_at _ ((d - 1) * (24 - h) / 168) _ _ M)) as X2.
  pose proof (nth_zipw nmul _ _ _ _ _ Eday (scale_at _ ((7 - d) * h / 168) _ _ M)) as X3.
  pose proof (nth_zipw nmul _ _ _ _ _ Ent (scale_at _ ((168 - h * d - (d - 1) * (24 - h) - (7 - d) * h) / 168) _ _ M)) as X4.
  pose proof (nth_zipw nadd _ _ _ _ _ (nth_zipw nadd _ _ _ _ _ X1 X2) (nth_zipw nadd _ _ _ _ _ X3 X4)) as X5.
  match type of X5 with _ = Some ?t => assert (T : t = sun_week h row * (month_megaseconds i / 168)) by (ops; unfold sun_week; field) end. rewrite T in X5.
  assert (TP : 0 < sun_week h row * (month_megaseconds i / 168)) by (apply Rmult_lt_0_compat; lra).
  assert (G : forall s x y, nth_error s i = Some (x * (month_megaseconds i / 168)) -> y = x -> nth_error (vdiv s (vadd (vadd (vmul (maskedMean (mw_mhEgh w) (clockMask h 1 0)) (scale megasecondsInMonth (h * d / 168)))
      (vmul (maskedMean (mw_mhEgh w) (clockMask h 0 1)) (scale megasecondsInMonth ((d - 1) * (24 - h) / 168))))
      (vadd (vmul (maskedMean (mw_mhEgh w) (clockMask h 1 0)) (scale megasecondsInMonth ((7 - d) * h / 168)))
      (vmul (maskedMean (mw_mhEgh w) (clockMask h 0 1)) (scale megasecondsInMonth ((168 - h * d - (d - 1) * (24 - h) - (7 - d) * h) / 168)))))) i = Some (y / sun_week h row)).
  { intros s x y S ->. unfold vdiv. rewrite (nth_zipw sdiv _ _ _ _ _ S X5), sdiv_R by lra. f_equal. field. split; lra. }
  split; [|split].
  - eapply G; [|reflexivity]. unfold vmul. rewrite X2. f_equal. ops. unfold sun_week_night. field.
  - eapply G; [|reflexivity]. unfold vmul. rewrite X3. f_equal. ops. unfold sun_weekend_day. field.
  - eapply G; [|reflexivity]. unfold vmul. rewrite X4. f_equal. ops. unfold sun_weekend_night. field.
Qed.
Lemma C27_l po w b i row : 0 < day_length po < 24 -> full_tables w -> (forall r, In r (mw_mhEgh w) -> all_nonneg r) ->
  solarRadiationBreakdown (scheduleAndOccupancy (map_population Fin po)) (fin_weather w) = Ok b -> nth_error (mw_mhEgh w) i = Some row ->
  let h := day_length po in let d := week_days po in let W := sun_week h row in
  0 < W /\ sun_work_day h d row + sun_week_night h d row + sun_weekend_day h d row + sun_weekend_night h d row = W /\
  nth_error (bd_wk_nt b) i = Some (Fin (sun_week_night h d row / W)) /\
  nth_error (bd_wke_day b) i = Some (Fin (sun_weekend_day h d row / W)) /\
  nth_error (bd_wke_nt b) i = Some (Fin (sun_weekend_night h d row / W)) /\
  (1 <= d <= 7 -> 0 <= sun_work_day h d row /\ 0 <= sun_week_night h d row /\ 0 <= sun_weekend_day h d row /\ 0 <= sun_weekend_night h d row).
Proof.
  intros H F P B I. cbv zeta. pose proof (nth_error_In _ _ I) as J.
  rewrite oc_fin, bd_fin in B.
  2:{ cbn [scheduleAndOccupancy oc_clockOcc]. rewrite !zn_R. refine (proj1 (mask_sum (hoursPerDay po) _)). rewrite day_length_eq. lra. }
  2:{ cbn [scheduleAndOccupancy oc_clockUnocc]. rewrite !zn_R. refine (proj2 (mask_sum (hoursPerDay po) _)). rewrite day_length_eq. lra. }
  apply fmap_ok in B. destruct B as (b' & B & ->).
  assert (W : 0 < sun_week (day_length po) row).
  { assert (S : sun_every_month w) by (apply (breakdown_iff (scheduleAndOccupancy po)); eauto). destruct (S row J) as (x & X & E). rewrite zn_R in E.
    cbn [neqb R_num] in E. apply (sun_pos _ _ x H (P row J) X). intros ->. rewrite Reqb_true in E by reflexivity. discriminate E. }
  destruct (breakdown_at po w b' i row H F B I W) as (A1 & A2 & A3). cbn [fin_bd bd_wk_nt bd_wke_day bd_wke_nt]. rewrite !nth_error_map, A1, A2, A3.
  split; [exact W|]. split; [apply sun_split|]. do 3 (split; [reflexivity|]). intros D.
  assert (DM : 0 <= day_mean (day_length po) row) by (apply mean_nonneg; intros y K; apply (P row J); now apply selected_in in K).
  assert (NM : 0 <= night_mean (day_length po) row) by (apply mean_nonneg; intros y K; apply (P row J); now apply selected_in in K).
  unfold sun_work_day, sun_week_night, sun_weekend_day, sun_weekend_night.
  repeat split; (apply Rmult_le_pos; [apply Rmult_le_pos; lra|assumption]).
Qed.
(** No working day: the week nights get a negative share. *)
Lemma C27_days_l po w b i row : 0 < day_length po < 24 -> full_tables w -> (forall r, In r (mw_mhEgh w) -> all_nonneg r) ->
  solarRadiationBreakdown (scheduleAndOccupancy (map_population Fin po)) (fin_weather w) = Ok b -> nth_error (mw_mhEgh w) i = Some row ->
  week_days po < 1 -> (exists k x, nth_error row k = Some x /\ in_window (day_length po) k = false /\ 0 < x) -> exists r, nth_error (bd_wk_nt b) i = Some (Fin r) /\ r < 0.
Proof.
  intros H F P B I D (k & x & K & E & X). destruct (C27_l po w b i row H F P B I) as (W & _ & A & _). exists (sun_week_night (day_length po) (week_days po) row / sun_week (day_length po) row).
  split; [exact A|]. assert (NM : 0 < night_mean (day_length po) row).
  { assert (L : (k < length row)%nat) by (apply nth_error_Some; congruence). apply (mean_pos _ x); [intros y J; apply (P row (nth_error_In _ _ I)); now apply selected_in in J| |exact X].
    unfold selected. apply in_map_iff. exists (k, x). split; [reflexivity|]. apply filter_In. cbn [fst]. rewrite E. split; [|reflexivity].
    replace (k, x) with (nth k (combine (seq 0 (length row)) row) (O, 0)); [apply nth_In; rewrite combine_length, seq_length; lia|].
    rewrite combine_nth by apply seq_length. rewrite seq_nth by exact L. f_equal. now apply nth_error_nth. }
  unfold sun_week_night. assert (0 < (24 - day_length po) * (1 - week_days po) * night_mean (day_length po) row) by (apply Rmult_lt_0_compat; [apply Rmult_lt_0_compat; lra|exact NM]).
  apply Rmult_lt_reg_r with (sun_week (day_length po) row); [exact W|]. unfold Rdiv. rewrite Rmult_assoc, Rinv_l by lra. lra.
Qed.
