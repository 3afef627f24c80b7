(** Monthly totals of the clock-driven end uses of the hourly engine in doubles. *)
From Coq Require Import Reals Lra Psatz ZArith Bool List Lia.
From Flocq Require Import Core.Core IEEE754.BinarySingleNaN.
From Verif Require Import Base Num Xr Dbl L_Dbl M_Params M_TimeFrame M_Hourly S_Calendar S_Physical S_Results S_Year S_Totals S_Double S_DoubleMonthly S_DoubleTotals
  L_Calendar L_HourlyShape L_HourlyOut L_Inputs L_Totals L_Double L_Double2 L_Double5 L_Double6 L_Double7 E_SmallOffice L_Office L_Office2.
Import ListNotations.
Open Scope R_scope.

Lemma step_pos : 0 < smallest_step.
Proof. unfold smallest_step. apply Rinv_0_lt_compat, IZR_lt. reflexivity. Qed.
Lemma abs_between : forall x a, Rabs x <= a -> - a <= x <= a.
Proof. intros x a. unfold Rabs. destruct (Rcase_abs x); lra. Qed.
Lemma uro_small : 0 < uro <= / 1000000.
Proof. rewrite uro_val. lra. Qed.

(** A double that stands for the exact value [v] after two roundings. *)
Definition term_ok (y : double) (v : R) : Prop :=
  is_finite y = true /\ 0 <= v /\ Rabs (B2R y) <= top /\ Rabs (B2R y - v) <= ((1 + uro) ^ 2 - 1) * v + 2 * smallest_step.

Lemma sum_terms : forall A (f : A -> double) (g : A -> R) (l : list A), (length l <= 744)%nat -> (forall k, In k l -> term_ok (f k) (g k)) ->
  right_to_13 (fold_left (Bplus mode_NE) (map f l) (z2d 0)) (fold_right Rplus 0 (map g l)).
Proof.
  intros A f g l N H.
  assert (F : Forall (fun x => is_finite x = true /\ Rabs (B2R x) <= top) (map f l)).
  { apply Forall_forall. intros x I. apply in_map_iff in I as (k&<-&I). destruct (H k I) as (H1&_&H2&_). split; assumption. }
  assert (L0 : (Z.of_nat (length (map f l)) <= 9000)%Z) by (rewrite map_length; lia).
  destruct (sum_error_any (map f l) (z2d 0) 0 ltac:(lia) ltac:(lia) eq_refl) as (FS&_&ES); [change (B2R (z2d 0)) with 0; rewrite Rabs_R0; lra|exact F|].
  split; [exact FS|]. change (B2R (z2d 0)) with 0 in ES. rewrite Rabs_R0, !Rplus_0_l, map_length in ES.
  set (s := B2R (fold_left _ _ _)) in *. clearbody s. clear FS F L0.
  pose proof step_pos as SP. pose proof uro_small as UP. set (u2 := (1 + uro) ^ 2) in *. assert (U2 : 1 <= u2) by (apply pow_R1_Rle; lra).
  assert (K : Rabs (exact_sum (map f l) - fold_right Rplus 0 (map g l)) <= (u2 - 1) * fold_right Rplus 0 (map g l) + 2 * INR (length l) * smallest_step /\
    size_sum (map f l) <= u2 * fold_right Rplus 0 (map g l) + 2 * INR (length l) * smallest_step /\ 0 <= fold_right Rplus 0 (map g l)).
  { clear N ES. induction l as [|k l IH].
    - cbn. rewrite Rminus_0_r, Rabs_R0. lra.
    - destruct (IH (fun x I => H x (or_intror I))) as (I1&I2&I3). destruct (H k (or_introl eq_refl)) as (_&V&_&E). clear IH H. cbn [map length]. rewrite S_INR.
      change (exact_sum (f k :: map f l)) with (B2R (f k) + exact_sum (map f l)). change (size_sum (f k :: map f l)) with (Rabs (B2R (f k)) + size_sum (map f l)).
      cbn [fold_right]. fold u2 in E. set (e := B2R (f k)) in *. set (v := g k) in *. set (G := fold_right Rplus 0 (map g l)) in *. set (X := exact_sum (map f l)) in *.
      set (Y := size_sum (map f l)) in *. clearbody e v G X Y. set (t := smallest_step) in *. clearbody t.
      split; [|split].
      + replace (e + X - (v + G)) with ((e - v) + (X - G)) by ring. eapply Rle_trans; [apply Rabs_triang|]. nra.
      + assert (Rabs e <= v + Rabs (e - v)). { replace e with (v + (e - v)) at 1 by ring. eapply Rle_trans; [apply Rabs_triang|]. rewrite (Rabs_pos_eq v) by assumption. lra. }
        nra.
      + lra. }
  destruct K as (K1&K2&K3). set (G := fold_right Rplus 0 (map g l)) in *. set (X := exact_sum (map f l)) in *. set (Y := size_sum (map f l)) in *. clearbody G X Y.
  pose proof (month_hours_bound (length l + 2) ltac:(lia)) as W. rewrite pow_add in W. fold u2 in W.
  pose proof (month_hours_bound (length l) ltac:(lia)) as W0. set (w := (1 + uro) ^ length l) in *. assert (W1 : 1 <= w) by (apply pow_R1_Rle; lra). clearbody w u2.
  assert (NL : 0 <= INR (length l) <= 744). { split; [apply pos_INR|]. apply le_INR in N. replace (INR 744) with 744 in N by (rewrite INR_IZR_INZ; reflexivity). exact N. }
  set (n := INR (length l)) in *. clearbody n. set (t := smallest_step) in *. clearbody t.
  replace (s - G) with ((s - X) + (X - G)) by ring. eapply Rle_trans; [apply Rabs_triang|].
  assert (P1 : (w - 1) * Y <= (w - 1) * (u2 * G + 2 * n * t)) by (apply Rmult_le_compat_l; lra).
  assert (P2 : (w * u2 - 1) * G <= / 10000000000000 * G) by (apply Rmult_le_compat_r; lra).
  assert (P3 : n * t <= 744 * t) by (apply Rmult_le_compat_r; lra).
  assert (P4 : w * (2 * n * t) <= (1 + / 10000000000000) * (2 * (744 * t))) by (apply Rmult_le_compat; nra).
  unfold Rdiv. nra.
Qed.

Lemma div_term : forall x d : double, is_finite x = true -> 0 <= B2R x <= top -> is_finite d = true -> 1 <= B2R d ->
  is_finite (Bdiv mode_NE x d) = true /\ 0 <= B2R (Bdiv mode_NE x d) <= top /\
  exists e t, Rabs e <= uro /\ Rabs t <= smallest_step /\ B2R (Bdiv mode_NE x d) = B2R x / B2R d * (1 + e) + t.
Proof.
  intros x d FX BX FD BD. assert (NZ : B2R d <> 0) by lra. pose proof (div_rnd x d FX FD NZ) as DR.
  assert (I1 : 0 < / B2R d <= 1). { split; [apply Rinv_0_lt_compat; lra|]. rewrite <- Rinv_1. apply Rinv_le_contravar; lra. }
  assert (Q : 0 <= B2R x / B2R d <= top) by (unfold Rdiv; nra).
  destruct (is_rnd_below 1 _ _ ltac:(lia) DR) as (F&V&B); [rewrite Rabs_pos_eq by lra; lra|]. split; [exact F|]. rewrite Rmult_1_l in B.
  split.
  - split; [|apply abs_between in B; lra]. rewrite V. unfold rnd. apply round_ge_generic; [apply FLT_exp_valid; reflexivity|apply valid_rnd_N|apply generic_format_0|lra].
  - rewrite V. apply div_eps.
Qed.
Lemma kilo : is_finite (z2d 1000) = true /\ B2R (z2d 1000) = 1000.
Proof. apply z2d_val. lia. Qed.
Lemma power_top : forall x, power x -> is_finite x = true /\ 0 <= B2R x <= top.
Proof. intros x [F B]. pose proof ordinary_top. split; [exact F|lra]. Qed.

Lemma term_one : forall x : double, is_finite x = true -> 0 <= B2R x <= top -> term_ok (Bdiv mode_NE x (z2d 1000)) (B2R x / 1000).
Proof.
  intros x F B. destruct kilo as [K1 K2]. destruct (div_term x (z2d 1000) F B K1 ltac:(rewrite K2; lra)) as (F1&B1&e&t&E1&E2&V). rewrite K2 in V.
  split; [exact F1|]. split; [lra|]. split; [apply Rabs_le; lra|]. rewrite V. set (v := B2R x / 1000) in *. assert (0 <= v) by (unfold v; lra). clearbody v.
  pose proof step_pos. pose proof uro_small. replace (v * (1 + e) + t - v) with (v * e + t) by ring. eapply Rle_trans; [apply Rabs_triang|]. rewrite Rabs_mult, (Rabs_pos_eq v) by assumption.
  assert (v * Rabs e <= v * uro) by (apply Rmult_le_compat_l; assumption). nra.
Qed.
Lemma term_two : forall x d : double, is_finite x = true -> 0 <= B2R x <= top -> is_finite d = true -> 1 <= B2R d ->
  term_ok (Bdiv mode_NE (Bdiv mode_NE x d) (z2d 1000)) (B2R x / B2R d / 1000).
Proof.
  intros x d F B FD BD. destruct (div_term x d F B FD BD) as (F0&B0&e0&t0&E0&T0&V0). destruct kilo as [K1 K2].
  destruct (div_term _ (z2d 1000) F0 B0 K1 ltac:(rewrite K2; lra)) as (F1&B1&e&t&E1&E2&V). rewrite K2 in V.
  split; [exact F1|]. assert (I : 0 < / B2R d) by (apply Rinv_0_lt_compat; lra). assert (Q : 0 <= B2R x / B2R d) by (unfold Rdiv; nra).
  split; [lra|]. split; [apply Rabs_le; lra|]. rewrite V, V0. set (q := B2R x / B2R d) in *. clearbody q. clear V V0 F0 B0 F1 B1.
  pose proof step_pos as SP. pose proof uro_small as UP. set (s := smallest_step) in *. clearbody s.
  replace ((q * (1 + e0) + t0) / 1000 * (1 + e) + t - q / 1000) with (q / 1000 * (e0 + e + e0 * e) + (t0 / 1000 * (1 + e) + t)) by field.
  set (v := q / 1000). assert (VP : 0 <= v) by (unfold v; lra). clearbody v.
  eapply Rle_trans; [apply Rabs_triang|]. apply Rplus_le_compat.
  - rewrite Rabs_mult, (Rabs_pos_eq v), Rmult_comm by assumption. apply Rmult_le_compat_r; [assumption|].
    eapply Rle_trans; [apply Rabs_triang|]. pose proof (Rabs_triang e0 e). rewrite Rabs_mult. assert (Rabs e0 * Rabs e <= uro * uro) by (apply Rmult_le_compat; auto using Rabs_pos). nra.
  - apply abs_between in E1, E2, T0. apply Rabs_le. assert (0 <= 1 + e <= 2) by lra. nra.
Qed.
Lemma times_one : forall x : double, is_finite x = true -> 0 <= B2R x <= top -> is_finite (Bmult mode_NE x (z2d 1)) = true /\ B2R (Bmult mode_NE x (z2d 1)) = B2R x.
Proof.
  intros x F B. destruct (z2d_val 1 ltac:(lia)) as [F1 V1]. pose proof (mult_rnd x (z2d 1) F F1) as M. rewrite V1, Rmult_1_r in M.
  destruct (is_rnd_below 1 _ _ ltac:(lia) M) as (F2&V2&_); [rewrite Rabs_pos_eq by lra; lra|]. split; [exact F2|]. rewrite V2. unfold rnd. apply round_generic; [apply valid_rnd_N|].
  apply generic_format_B2R.
Qed.

Lemma whole_trunc : forall x z z', whole x z -> dtoint x = Some z' -> z' = z.
Proof.
  intros x z z' [F V] H. destruct x as [s| | |s m e pf]; try discriminate.
  - cbn in H, V. injection H as <-. symmetry. apply eq_IZR. symmetry. exact V.
  - unfold dtoint in H. destruct (_ && _)%bool in H; [|discriminate]. injection H as <-. apply eq_IZR.
    pose proof (Btrunc_correct 53 1024 _ (B754_finite s m e pf)) as B. rewrite round_FIX_IZR, V, Ztrunc_IZR in B. exact B.
Qed.

Lemma month_length : forall m, (1 <= m <= 12)%Z -> (length (hours_in m) <= 744)%nat.
Proof.
  intros m M. assert (A : forallb (fun m => Nat.leb (length (hours_in m)) 744) (zrange 1 12) = true) by (vm_compute; reflexivity).
  rewrite forallb_forall in A. apply Nat.leb_le, A. unfold zrange. apply in_map_iff. exists (Z.to_nat (m - 1)). split; [lia|]. apply in_seq. lia.
Qed.

Section D.
Context {L : libm}.
Variables (p : params_t double) (tt : timetable) (ws : list (weather double)) (r0 : ratios double).
Hypothesis HW : whole_hours p tt.
Hypothesis HP : powers p.
Definition w0 : weather double := mkWeather (z2d 0) (z2d 0) [].

Lemma raw_hours : forall raw r, simulateRaw p ws r0 = Ok (raw, r) -> forall k h, nth_error raw k = Some h ->
  exists w, nth_error ws k = Some w /\
    hr_plug h = (if occupied tt (Z.of_nat k) then bu_elecApplianceOcc (pa_building p) else bu_elecApplianceUnocc (pa_building p)) /\
    hr_extEquip h = (bu_externalEquipment (pa_building p) / st_floorArea (pa_structure p))%num /\
    hr_illum_ext h = exteriorLighting p (zn 1) (we_sol w).
Proof.
  intros raw r HR k h Hk. pose proof (simulateRaw_length _ _ _ _ _ HR) as LR. unfold simulateRaw in HR. apply obind_ok in HR as (tbl&HT&HR). apply obind_ok in HR as (i&_&HR).
  apply obind_ok in HR as (fr&Hf&HR). apply obind_ok in HR as (rw&Hr&HR). assert (rw = raw) by congruence. subst rw. clear HR.
  destruct (yearLoop_nth _ _ _ _ _ _ _ Hr k h Hk) as (c&w&sc&th&Fk&Wk&_&Sk&->). exists w. split; [exact Wk|].
  destruct (populate_cells _ _ HT) as (ds&de&hs&he&A1&A2&A3&A4&A). pose proof (A _ _ _ Sk) as ->. clear A Hr Hk.
  destruct HW as (W1&W2&W3&W4). pose proof (whole_trunc _ _ _ W1 A3) as ->. pose proof (whole_trunc _ _ _ W2 A4) as ->. pose proof (whole_trunc _ _ _ W3 A1) as ->. pose proof (whole_trunc _ _ _ W4 A2) as ->.
  destruct timeFrame_spec as (a&TF&LA&TS). assert (fr = a) by congruence. subst fr.
  assert (KK : (0 <= Z.of_nat k < 8760)%Z). { assert (k < length a)%nat by (apply nth_error_Some; congruence). lia. }
  destruct (TS _ KK) as (c'&C1&C2&_&C3&_). rewrite Nat2Z.id, Fk in C1. injection C1 as <-.
  split; [|split; reflexivity].
  change (hr_plug _) with (sc_intEquip (sched_cell p (tt_firstDay tt) (tt_lastDay tt) (tt_firstHour tt) (tt_lastHour tt) (tc_hour c) (tc_dow c))).
  unfold sched_cell, sc_intEquip, occupied, open_hour. rewrite C2, C3. reflexivity.
Qed.

Lemma series_map : forall k (F : Z -> double) (G : Z -> R) (P : double -> R -> Prop) ms rows, is_series k rows (map F ms) -> (forall m, In m ms -> P (F m) (G m)) ->
  Forall2 (fun row r => exists x, nth_error row k = Some x /\ P x r) rows (map G ms).
Proof.
  intros k F G P ms. unfold is_series. induction ms as [|m ms IH]; intros rows S H; inversion S; subst; constructor.
  - eexists. split; [eassumption|]. apply H. left; reflexivity.
  - apply IH; [assumption|]. intros m0 I. apply H. right; exact I.
Qed.
(** A column that follows from the hour alone, summed by months. *)
Lemma column_months : forall (f : Z -> double) (g : Z -> R) k rows, (forall z, (0 <= z < 8760)%Z -> term_ok (f z) (g z)) ->
  is_series k rows (map (fun m => accumulate (month_part m (map f year_hours))) (zrange 1 12)) ->
  column_right k rows (map (fun m => fold_right Rplus 0 (map g (hours_in m))) (zrange 1 12)).
Proof.
  intros f g k rows T S. unfold column_right. refine (series_map k (fun m => accumulate (month_part m (map f year_hours))) (fun m => fold_right Rplus 0 (map g (hours_in m))) right_to_13 (zrange 1 12) rows S _).
  intros m I. unfold zrange in I. apply in_map_iff in I as (j&<-&J). apply in_seq in J. set (m := (1 + Z.of_nat j)%Z). assert (M : (1 <= m <= 12)%Z) by lia. clearbody m.
  unfold year_hours. rewrite month_part_index. apply sum_terms; [apply month_length, M|].
  intros z I. apply T. apply filter_In in I as [I _]. unfold zrange in I. apply in_map_iff in I as (i&<-&I). apply in_seq in I. lia.
Qed.

Lemma dark_months : forall a m, (Z.of_nat (length ws) = 8760)%Z ->
  fold_right Rplus 0 (map (fun k => (if dark_d (nth (Z.to_nat k) ws w0) then a else 0) / 1000) (hours_in m)) = a * number dark_d (month_part m ws) / 1000.
Proof.
  intros a m LW. fold (Rsum (map (fun k => (if dark_d (nth (Z.to_nat k) ws w0) then a else 0) / 1000) (hours_in m))). rewrite (Rsum_if Z (fun k => dark_d (nth (Z.to_nat k) ws w0))). do 2 f_equal. unfold number, hours_in, year_hours.
  assert (E : ws = map (fun k => nth (Z.to_nat k) ws w0) (zrange 0 8760)).
  { rewrite <- (map_id ws) at 1. apply list_index; [exact LW|]. intros k h E. rewrite Nat2Z.id. symmetry. apply nth_error_nth. exact E. }
  replace (month_part m ws) with (month_part m (map (fun k => nth (Z.to_nat k) ws w0) (zrange 0 8760))) by (rewrite <- E; reflexivity). rewrite month_part_index. clear E. generalize (filter (hour_in_month m) (zrange 0 8760)). intros l. f_equal.
  induction l as [|x l IH]; [reflexivity|]. cbn [map filter]. destruct (dark_d (nth (Z.to_nat x) ws w0)); cbn [length]; rewrite IH; reflexivity.
Qed.

Lemma C105_l : forall rows r, (Z.of_nat (length ws) = 8760)%Z -> simulate p ws r0 true = Ok (rows, r) ->
  column_right elec_int_equip rows (map (fun m => equipment_exact p tt (hours_in m)) (zrange 1 12)) /\
  column_right elec_ext_equip rows (map (fun m => ext_equipment_exact p (hours_in m)) (zrange 1 12)) /\
  column_right elec_ext_lights rows (map (fun m => ext_lights_exact p (month_part m ws)) (zrange 1 12)).
Proof.
  intros rows r LW H. destruct (simulate_det _ _ _ _ _ _ H) as (raw&HR&_&C). clear H.
  pose proof (raw_hours raw r HR) as Q. pose proof (simulateRaw_length _ _ _ _ _ HR) as LR.
  pose proof (C elec_int_equip _ eq_refl) as S1. pose proof (C elec_ext_equip _ eq_refl) as S2. pose proof (C elec_ext_lights _ eq_refl) as S3. cbv iota in S1, S2, S3. clear C HR.
  rewrite map_map in S1, S2, S3. destruct HP as [P1 P2 P3 P4 [P5 P6]].
  apply power_top in P1 as [F1 B1]. apply power_top in P2 as [F2 B2]. apply power_top in P3 as [F3 B3]. apply power_top in P4 as [F4 B4].
  split; [|split].
  - rewrite (list_index _ _ raw (fun k => ((if occupied tt k then bu_elecApplianceOcc (pa_building p) else bu_elecApplianceUnocc (pa_building p)) / zn 1000)%num) (fun x => (hr_plug x / zn 1000)%num) 8760 LR) in S1.
    2:{ intros k h E. destruct (Q k h E) as (w&_&->&_). reflexivity. }
    apply (column_months _ (fun k => (if occupied tt k then B2R (bu_elecApplianceOcc (pa_building p)) else B2R (bu_elecApplianceUnocc (pa_building p))) / 1000)) in S1.
    2:{ intros z _. destruct (occupied tt z); apply term_one; assumption. }
    erewrite map_ext; [exact S1|]. intros m. cbv beta. symmetry. apply (Rsum_choice Z (occupied tt)).
  - rewrite (list_index _ _ raw (fun k => (bu_externalEquipment (pa_building p) / st_floorArea (pa_structure p) / zn 1000)%num) (fun x => (hr_extEquip x / zn 1000)%num) 8760 LR) in S2.
    2:{ intros k h E. destruct (Q k h E) as (w&_&_&->&_). reflexivity. }
    apply (column_months _ (fun k => B2R (bu_externalEquipment (pa_building p)) / B2R (st_floorArea (pa_structure p)) / 1000)) in S2.
    2:{ intros z _. apply term_two; assumption. }
    erewrite map_ext; [exact S2|]. intros m. cbv beta. symmetry. apply (Rsum_const Z).
  - rewrite (list_index _ _ raw (fun k => (exteriorLighting p (zn 1) (we_sol (nth (Z.to_nat k) ws w0)) / zn 1000)%num) (fun x => (hr_illum_ext x / zn 1000)%num) 8760 LR) in S3.
    2:{ intros k h E. destruct (Q k h E) as (w&W&_&_&->). rewrite Nat2Z.id, (nth_error_nth _ _ _ W). reflexivity. }
    apply (column_months _ (fun k => (if dark_d (nth (Z.to_nat k) ws w0) then B2R (li_exteriorEnergy (pa_lighting p)) / B2R (st_floorArea (pa_structure p)) else 0) / 1000)) in S3.
    2:{ intros z _. unfold dark_d, exteriorLighting, at9. set (w := nth (Z.to_nat z) ws w0). clearbody w.
        change (nlt (zn 0) (nth 8 (we_sol w) (zn 0))) with (Bltb (z2d 0) (nth 8 (we_sol w) (z2d 0))). destruct (Bltb _ _); cbn [negb].
        - replace (0 / 1000) with (B2R (z2d 0) / 1000) by (change (B2R (z2d 0)) with 0; lra). apply term_one; [reflexivity|]. change (B2R (z2d 0)) with 0. pose proof top_pos. lra.
        - destruct (times_one _ F4 B4) as [T1 T2]. rewrite <- T2. apply term_two; [exact T1|rewrite T2; exact B4|exact P5|exact P6]. }
    erewrite map_ext; [exact S3|]. intros m. cbv beta. symmetry. apply dark_months. exact LW.
Qed.
End D.

(** ** The office *)
Lemma between_check : forall x lo hi, (-9000 <= lo <= 9000)%Z -> (-9000 <= hi <= 9000)%Z ->
  (is_finite x && Bleb (z2d lo) x && Bleb x (z2d hi))%bool = true -> is_finite x = true /\ IZR lo <= B2R x <= IZR hi.
Proof.
  intros x lo hi A B H. apply andb_true_iff in H as [H H3]. apply andb_true_iff in H as [H1 H2]. destruct (z2d_val lo A) as [F1 V1]. destruct (z2d_val hi B) as [F2 V2].
  rewrite Bleb_correct in H2, H3 by assumption. split; [exact H1|]. rewrite V1 in H2. rewrite V2 in H3.
  destruct (Rle_bool_spec (IZR lo) (B2R x)); [|discriminate]. destruct (Rle_bool_spec (B2R x) (IZR hi)); [|discriminate]. split; assumption.
Qed.
Lemma power_check : forall x, (is_finite x && Bleb (z2d 0) x && Bleb x (z2d 9000))%bool = true -> power x.
Proof.
  intros x H. destruct (between_check x 0 9000 ltac:(lia) ltac:(lia) H) as (F&B). split; [exact F|]. assert (9000 <= IZR (10 ^ 300)) by (apply IZR_le; vm_compute; discriminate). lra.
Qed.
Lemma office_powers {L : libm} : powers (@smallOffice double (dbl_num L)).
Proof.
  constructor; try (apply power_check; vm_compute; reflexivity).
  destruct (between_check (st_floorArea (pa_structure (@smallOffice double (dbl_num L)))) 1 9000 ltac:(lia) ltac:(lia)) as (F&B); [vm_compute; reflexivity|]. split; [exact F|lra].
Qed.
Lemma office_whole {L : libm} : whole_hours (@smallOffice double (dbl_num L)) office_hours.
Proof. unfold whole_hours. split; [|split; [|split]]; [exact (z2d_val 8 ltac:(lia))|exact (z2d_val 17 ltac:(lia))|exact (z2d_val 1 ltac:(lia))|exact (z2d_val 5 ltac:(lia))]. Qed.
Lemma office_months {L : libm} : forall t, Z.of_nat (length (@constant_year 8760 double (dbl_num L) t)) = 8760%Z /\
  exists rows r, simulate (@smallOffice double (dbl_num L)) (constant_year 8760 t) no_ratios true = Ok (rows, r).
Proof. intros t. split; [rewrite constant_year_length; lia|apply office_runs_d]. Qed.
