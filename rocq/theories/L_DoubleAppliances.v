(** The appliance columns of the monthly engine in doubles. *)
From Coq Require Import Reals Lra Psatz ZArith Bool List Lia.
From Flocq Require Import Core.Core IEEE754.BinarySingleNaN.
From Verif Require Import Base Num Xr Dbl L_Dbl M_Params M_Monthly S_Calendar S_Results S_Year S_Monthly S_Double S_DoubleMonthly S_DoubleTotals S_DoubleAppliances
  L_Double L_Double2 L_Double6 L_Double7 L_Double8 L_Double9 L_Office L_Office2 L_Monthly L_Monthly3 E_SmallOffice E_Monthly.
Import ListNotations.
Open Scope R_scope.

Lemma uro_step : 0 < uro <= / 1000000 /\ 0 < smallest_step <= uro / 1000.
Proof.
  pose proof uro_small. pose proof step_pos. repeat split; try lra. rewrite uro_val. unfold smallest_step, Rdiv. rewrite <- Rinv_mult.
  apply Rinv_le_contravar; [lra|].
  rewrite <- mult_IZR. apply IZR_le. vm_compute. discriminate.
Qed.
(** One more rounding. *)
Lemma rnd_near r v a b : Rabs (r - v) <= a * v + b -> 0 <= v -> 0 <= a <= 1 -> 0 <= b -> Rabs (rnd r - v) <= (a + 2 * uro) * v + (2 * b + smallest_step).
Proof.
  intros H V A B. destruct (div_eps r) as (e & t & E & T & ->). pose proof uro_step as (U & S).
  replace (r * (1 + e) + t - v) with ((r - v) * (1 + e) + (v * e + t)) by ring. eapply Rle_trans; [apply Rabs_triang|]. rewrite Rabs_mult.
  assert (K1 : Rabs (1 + e) <= 1 + uro) by (apply abs_between in E; apply Rabs_le; lra).
  assert (K2 : Rabs (v * e + t) <= v * uro + smallest_step). { eapply Rle_trans; [apply Rabs_triang|]. rewrite Rabs_mult, (Rabs_pos_eq v) by exact V. apply Rplus_le_compat; [apply Rmult_le_compat_l; assumption|exact T]. }
  assert (K3 : Rabs (r - v) * Rabs (1 + e) <= (a * v + b) * (1 + uro)) by (apply Rmult_le_compat; auto using Rabs_pos).
  assert (K4 : (a * v + b) * (1 + uro) <= a * v + v * uro + 2 * b).
  { assert (a * v * uro <= 1 * v * uro) by (apply Rmult_le_compat_r; [lra|]; apply Rmult_le_compat_r; lra). assert (b * uro <= b * 1) by (apply Rmult_le_compat_l; lra). lra. }
  lra.
Qed.

(** ** Whole numbers *)
Lemma whole_rnd z r x : (- 9000 <= z <= 9000)%Z -> is_rnd r x -> r = IZR z -> whole x z.
Proof.
  intros B M ->. destruct (z2d_val z B) as [F V].
  assert (RR : rnd (IZR z) = IZR z) by (rewrite <- V; unfold rnd; apply round_generic; [apply valid_rnd_N|apply generic_format_B2R]).
  assert (TB : Rabs (IZR z) <= IZR 9000 * top).
  { rewrite <- abs_IZR. assert (IZR (Z.abs z) <= IZR 9000) by (apply IZR_le; lia). assert (1 <= top) by (unfold top; change 1 with (bpow radix2 0); apply bpow_le; lia).
    pose proof (IZR_le 0 (Z.abs z) ltac:(lia)). nra. }
  destruct (is_rnd_below 9000 _ _ ltac:(lia) M TB) as (F1 & V1 & _). split; [exact F1|]. rewrite V1. exact RR.
Qed.
Lemma whole_lt x z : whole x z -> Bltb x (z2d 0) = Z.ltb z 0.
Proof.
  intros [F V]. rewrite Bltb_correct by (try exact F; reflexivity). change (B2R (z2d 0)) with 0. rewrite V.
  destruct (Z.ltb_spec z 0) as [H|H]; [apply Rlt_bool_true, (IZR_lt z 0 H)|apply Rlt_bool_false, (IZR_le 0 z H)].
Qed.
Section D.
Context {L : libm}.
Variables (p : params_t double) (tt : timetable).
Hypothesis (HW : whole_hours p tt) (HI : in_week tt).
Notation po := (pa_population p).
Lemma hours_whole : whole (hoursPerDay po) (open_hours tt) /\ (0 <= open_hours tt <= 24)%Z.
Proof.
  destruct HW as (W1 & W2 & _ & _). destruct HI as (I1 & I2 & _ & _). unfold open_hours. cbv zeta.
  assert (D : whole (Bminus mode_NE (po_hoursEnd po) (po_hoursStart po)) (tt_lastHour tt - tt_firstHour tt)).
  { apply (whole_rnd _ (B2R (po_hoursEnd po) - B2R (po_hoursStart po))); [lia|apply minus_rnd; [apply W2|apply W1]|]. rewrite (proj2 W1), (proj2 W2), minus_IZR. reflexivity. }
  unfold hoursPerDay. cbv zeta. change (po_hoursEnd po - po_hoursStart po)%num with (Bminus mode_NE (po_hoursEnd po) (po_hoursStart po)).
  set (h := Bminus mode_NE (po_hoursEnd po) (po_hoursStart po)) in *. change (h <? zn 0)%num with (Bltb h (z2d 0)). rewrite (whole_lt _ _ D).
  destruct (Z.ltb_spec (tt_lastHour tt - tt_firstHour tt) 0) as [N|N]; [|split; [exact D|lia]]. split; [|lia].
  destruct (z2d_val 24 ltac:(lia)) as [G V]. apply (whole_rnd _ (B2R h + B2R (z2d 24))); [lia|apply plus_rnd; [apply D|exact G]|]. rewrite (proj2 D), V, <- plus_IZR. reflexivity.
Qed.
Lemma days_whole : whole (daysPerWeek po) (open_days tt) /\ (0 <= open_days tt <= 7)%Z.
Proof.
  destruct HW as (_ & _ & W1 & W2). destruct HI as (_ & _ & I1 & I2). unfold open_days. cbv zeta.
  assert (D0 : whole (Bminus mode_NE (po_daysEnd po) (po_daysStart po)) (tt_lastDay tt - tt_firstDay tt)).
  { apply (whole_rnd _ (B2R (po_daysEnd po) - B2R (po_daysStart po))); [lia|apply minus_rnd; [apply W2|apply W1]|]. rewrite (proj2 W1), (proj2 W2), minus_IZR. reflexivity. }
  destruct (z2d_val 1 ltac:(lia)) as [G1 V1].
  assert (D : whole (Bplus mode_NE (Bminus mode_NE (po_daysEnd po) (po_daysStart po)) (z2d 1)) (tt_lastDay tt - tt_firstDay tt + 1)).
  { apply (whole_rnd _ (B2R (Bminus mode_NE (po_daysEnd po) (po_daysStart po)) + B2R (z2d 1))); [lia|apply plus_rnd; [apply D0|exact G1]|]. rewrite (proj2 D0), V1, <- plus_IZR. reflexivity. }
  unfold daysPerWeek. cbv zeta. change (po_daysEnd po - po_daysStart po + zn 1)%num with (Bplus mode_NE (Bminus mode_NE (po_daysEnd po) (po_daysStart po)) (z2d 1)).
  set (h := Bplus mode_NE (Bminus mode_NE (po_daysEnd po) (po_daysStart po)) (z2d 1)) in *. change (h <? zn 0)%num with (Bltb h (z2d 0)). rewrite (whole_lt _ _ D).
  destruct (Z.ltb_spec (tt_lastDay tt - tt_firstDay tt + 1) 0) as [N|N]; [|split; [exact D|lia]]. split; [|lia].
  destruct (z2d_val 7 ltac:(lia)) as [G V]. apply (whole_rnd _ (B2R h + B2R (z2d 7))); [lia|apply plus_rnd; [apply D|exact G]|]. rewrite (proj2 D), V, <- plus_IZR. reflexivity.
Qed.
Notation wk := (oc_wk_day (scheduleAndOccupancy po)).
Notation rest := (Bminus mode_NE (z2d 1) wk).
Notation s := (open_share tt).
(** The share of open hours and the rest are right to a few units in the last place, or exactly zero or one. *)
Lemma shares_near : is_finite wk = true /\ is_finite rest = true /\ 0 <= B2R wk <= 1 /\ 0 <= B2R rest <= 1 /\ 0 <= s <= 1 /\
  Rabs (B2R wk - s) <= 2 * uro * s /\ Rabs (B2R rest - (1 - s)) <= 350 * uro * (1 - s).
Proof.
  destruct hours_whole as [A1 A2]. destruct days_whole as [B1 B2]. pose proof uro_step as (U & S).
  set (n := (open_hours tt * open_days tt)%Z). assert (N : (0 <= n <= 168)%Z) by (unfold n; nia).
  assert (Q : whole (Bmult mode_NE (hoursPerDay po) (daysPerWeek po)) n).
  { apply (whole_rnd _ (B2R (hoursPerDay po) * B2R (daysPerWeek po))); [lia|apply mult_rnd; [apply A1|apply B1]|]. rewrite (proj2 A1), (proj2 B1), <- mult_IZR. reflexivity. }
  destruct (z2d_val 168 ltac:(lia)) as [G V].
  assert (W : is_rnd (IZR n / 168) wk).
  { change wk with (Bdiv mode_NE (Bmult mode_NE (hoursPerDay po) (daysPerWeek po)) (z2d 168)). rewrite <- (proj2 Q), <- V. apply div_rnd; [apply Q|exact G|rewrite V; lra]. }
  assert (ES : s = IZR n / 168) by reflexivity. pose proof (IZR_le 0 n ltac:(lia)) as N1. pose proof (IZR_le n 168 ltac:(lia)) as N2.
  assert (SB : 0 <= s <= 1) by lra. rewrite <- ES in W.
  destruct (within_rnd 0 1 _ _ ltac:(lia) ltac:(lia) W SB) as [FW BW].
  destruct (is_rnd_below 1 _ _ ltac:(lia) W) as (_ & VW & _).
  { rewrite Rabs_pos_eq by lra. assert (1 <= top) by (unfold top; change 1 with (bpow radix2 0); apply bpow_le; lia). lra. }
  destruct (z2d_val 1 ltac:(lia)) as [G1 V1]. pose proof (minus_rnd (z2d 1) wk G1 FW) as M. rewrite V1 in M.
  destruct (within_rnd 0 1 _ _ ltac:(lia) ltac:(lia) M ltac:(lra)) as [FR BR].
  destruct (is_rnd_below 1 _ _ ltac:(lia) M) as (_ & VR & _).
  { rewrite Rabs_pos_eq by lra. assert (1 <= top) by (unfold top; change 1 with (bpow radix2 0); apply bpow_le; lia). lra. }
  split; [exact FW|]. split; [exact FR|]. split; [exact BW|]. split; [exact BR|]. split; [exact SB|].
  assert (K : Rabs (B2R wk - s) <= 2 * uro * s).
  { rewrite VW. destruct (Z.eq_dec n 0) as [Z0|Z0].
    - assert (s = 0) by (rewrite ES, Z0; lra). assert (rnd s = 0) by (rewrite H; apply round_0, valid_rnd_N). rewrite H0, H, Rminus_0_r, Rabs_R0. lra.
    - pose proof (IZR_le 1 n ltac:(lia)) as N3. destruct (div_eps s) as (e & t & E & T & ->). replace (s * (1 + e) + t - s) with (s * e + t) by ring.
      eapply Rle_trans; [apply Rabs_triang|]. rewrite Rabs_mult, (Rabs_pos_eq s) by lra. assert (s * Rabs e <= s * uro) by (apply Rmult_le_compat_l; lra).
      assert (uro / 1000 <= s * uro) by (assert (/ 1000 * uro <= s * uro) by (apply Rmult_le_compat_r; lra); lra). lra. }
  split; [exact K|]. rewrite VR.
  destruct (Z.eq_dec n 168) as [Z0|Z0].
  - assert (S1 : s = 1) by (rewrite ES, Z0; lra). assert (W1 : B2R wk = 1).
    { rewrite VW, S1, <- V1. unfold rnd. apply round_generic; [apply valid_rnd_N|apply generic_format_B2R]. }
    rewrite W1, S1. replace (1 - 1) with 0 by ring. assert (rnd 0 = 0) by (apply round_0, valid_rnd_N). rewrite H, Rminus_0_r, Rabs_R0. lra.
  - pose proof (IZR_le n 167 ltac:(lia)) as N3. assert (s <= 167 * (1 - s)) by lra.
    assert (D : Rabs (1 - B2R wk - (1 - s)) <= 334 * uro * (1 - s) + 0).
    { replace (1 - B2R wk - (1 - s)) with (- (B2R wk - s)) by ring. rewrite Rabs_Ropp. assert (2 * uro * s <= 2 * uro * (167 * (1 - s))) by (apply Rmult_le_compat_l; lra). lra. }
    pose proof (rnd_near _ _ _ _ D ltac:(lra) ltac:(lra) ltac:(lra)) as R0.
    assert (smallest_step <= uro * (1 - s)) by (assert (/ 168 <= 1 - s) by lra; assert (uro * / 168 <= uro * (1 - s)) by (apply Rmult_le_compat_l; lra); lra).
    lra.
Qed.
Lemma part_near a c w k : power a -> is_finite c = true -> 0 <= B2R c <= 1 -> 0 <= w -> 0 <= k <= 350 -> Rabs (B2R c - w) <= k * uro * w ->
  is_finite (Bmult mode_NE a c) = true /\ 0 <= B2R (Bmult mode_NE a c) <= top /\ Rabs (B2R (Bmult mode_NE a c) - B2R a * w) <= 352 * uro * (B2R a * w) + smallest_step.
Proof.
  intros P FC BC WB KB K. pose proof uro_step as (U & S). apply power_top in P as [FA BA]. pose proof (mult_rnd a c FA FC) as M.
  assert (Q : 0 <= B2R a * B2R c <= top) by (split; [apply Rmult_le_pos; lra|]; assert (B2R a * B2R c <= B2R a * 1) by (apply Rmult_le_compat_l; lra); lra).
  destruct (is_rnd_below 1 _ _ ltac:(lia) M) as (F & V & B); [rewrite Rabs_pos_eq by lra; lra|]. split; [exact F|]. rewrite Rmult_1_l in B.
  split. { split; [|apply abs_between in B; lra]. rewrite V. unfold rnd. apply round_ge_generic; [apply FLT_exp_valid; reflexivity|apply valid_rnd_N|apply generic_format_0|lra]. }
  rewrite V. assert (VW : 0 <= B2R a * w) by (apply Rmult_le_pos; lra).
  assert (D : Rabs (B2R a * B2R c - B2R a * w) <= k * uro * (B2R a * w) + 0).
  { rewrite <- Rmult_minus_distr_l, Rabs_mult, (Rabs_pos_eq (B2R a)) by lra. assert (B2R a * Rabs (B2R c - w) <= B2R a * (k * uro * w)) by (apply Rmult_le_compat_l; lra). lra. }
  assert (KU : 0 <= k * uro <= 1) by (split; [apply Rmult_le_pos; lra|]; assert (k * uro <= 350 * uro) by (apply Rmult_le_compat_r; lra); lra).
  pose proof (rnd_near _ _ _ _ D VW KU ltac:(lra)) as R0.
  assert (k * uro * (B2R a * w) <= 350 * uro * (B2R a * w)) by (apply Rmult_le_compat_r; [exact VW|apply Rmult_le_compat_r; lra]). lra.
Qed.
Lemma month_near a b h : power a -> power b -> (0 <= h <= 744)%Z ->
  right_to_13 (sdiv (Bmult mode_NE (z2d h) (Bplus mode_NE (Bmult mode_NE a wk) (Bmult mode_NE b rest))) (z2d 1000)) (IZR h * (B2R a * s + B2R b * (1 - s)) / 1000).
Proof.
  intros PA PB HB. destruct shares_near as (F1 & F2 & B1 & B2 & SB & E1 & E2). pose proof uro_step as (U & S). pose proof top_pos as TP.
  destruct (part_near a wk s 2 PA F1 B1 ltac:(lra) ltac:(lra) E1) as (G1 & C1 & D1). destruct (part_near b rest (1 - s) 350 PB F2 B2 ltac:(lra) ltac:(lra) E2) as (G2 & C2 & D2).
  assert (VA : 0 <= B2R a * s) by (apply Rmult_le_pos; [apply PA|lra]). assert (VB : 0 <= B2R b * (1 - s)) by (apply Rmult_le_pos; [apply PB|lra]).
  set (x := Bmult mode_NE a wk) in *. set (y := Bmult mode_NE b rest) in *. clearbody x y. set (va := B2R a * s) in *. set (vb := B2R b * (1 - s)) in *. clearbody va vb.
  clear E1 E2 F1 F2 B1 B2 PA PB. set (v := va + vb).
  (* the sum *)
  pose proof (plus_rnd x y G1 G2) as M1. destruct (is_rnd_below 2 _ _ ltac:(lia) M1) as (F3 & V3 & B3); [rewrite Rabs_pos_eq by lra; lra|].
  assert (A1 : Rabs (B2R x + B2R y - v) <= 352 * uro * v + 2 * smallest_step).
  { unfold v. replace (B2R x + B2R y - (va + vb)) with ((B2R x - va) + (B2R y - vb)) by ring. eapply Rle_trans; [apply Rabs_triang|]. lra. }
  pose proof (rnd_near _ _ _ _ A1 ltac:(unfold v; lra) ltac:(lra) ltac:(lra)) as A2. rewrite <- V3 in A2. set (z := Bplus mode_NE x y) in *. clearbody z. clear A1 M1 V3.
  assert (VP : 0 <= v) by (unfold v; lra). clearbody v.
  (* times the hours *)
  destruct (z2d_val h ltac:(lia)) as [FH VH]. pose proof (IZR_le 0 h ltac:(lia)) as H1. pose proof (IZR_le h 744 ltac:(lia)) as H2.
  pose proof (mult_rnd (z2d h) z FH F3) as M2. rewrite VH in M2.
  assert (T2 : Rabs (IZR h * B2R z) <= IZR 1488 * top).
  { rewrite Rabs_mult, (Rabs_pos_eq (IZR h)) by lra. assert (IZR h * Rabs (B2R z) <= 744 * (2 * top)) by (apply Rmult_le_compat; auto using Rabs_pos; lra). lra. }
  destruct (is_rnd_below 1488 _ _ ltac:(lia) M2 T2) as (F4 & V4 & B4).
  assert (A3 : Rabs (IZR h * B2R z - IZR h * v) <= 354 * uro * (IZR h * v) + 744 * (5 * smallest_step)).
  { rewrite <- Rmult_minus_distr_l, Rabs_mult, (Rabs_pos_eq (IZR h)) by lra.
    assert (IZR h * Rabs (B2R z - v) <= IZR h * (354 * uro * v + 5 * smallest_step)) by (apply Rmult_le_compat_l; lra).
    assert (IZR h * (5 * smallest_step) <= 744 * (5 * smallest_step)) by (apply Rmult_le_compat_r; lra). lra. }
  assert (HV : 0 <= IZR h * v) by (apply Rmult_le_pos; lra).
  pose proof (rnd_near _ _ _ _ A3 HV ltac:(lra) ltac:(lra)) as A4. rewrite <- V4 in A4. set (m := Bmult mode_NE (z2d h) z) in *. clearbody m. clear A3 M2 V4.
  set (hv := IZR h * v) in *. clearbody hv.
  (* divided by 1000 *)
  destruct kilo as [K1 K2]. assert (ED : sdiv m (z2d 1000) = Bdiv mode_NE m (z2d 1000)) by reflexivity. rewrite ED.
  pose proof (div_rnd m (z2d 1000) F4 K1 ltac:(rewrite K2; lra)) as M3. rewrite K2 in M3.
  assert (T3 : Rabs (B2R m / 1000) <= IZR 1488 * top).
  { unfold Rdiv. rewrite Rabs_mult, (Rabs_pos_eq (/ 1000)) by lra. pose proof (Rabs_pos (B2R m)). lra. }
  destruct (is_rnd_below 1488 _ _ ltac:(lia) M3 T3) as (F5 & V5 & _). split; [exact F5|]. rewrite V5.
  assert (A5 : Rabs (B2R m / 1000 - hv / 1000) <= 356 * uro * (hv / 1000) + 8 * smallest_step).
  { replace (B2R m / 1000 - hv / 1000) with ((B2R m - hv) * / 1000) by field. rewrite Rabs_mult, (Rabs_pos_eq (/ 1000)) by lra. lra. }
  pose proof (rnd_near _ _ _ _ A5 ltac:(lra) ltac:(lra) ltac:(lra)) as A6.
  assert (358 * uro <= / 10000000000000) by (rewrite uro_val; lra).
  assert ((356 * uro + 2 * uro) * (hv / 1000) <= / 10000000000000 * (hv / 1000)) by (apply Rmult_le_compat_r; lra). lra.
Qed.

Lemma plug_near a b : power a -> power b -> Forall2 right_to_13 (plugLoad a b wk) (map (appliances_exact tt a b) (seq 0 12)).
Proof.
  intros PA PB. unfold plugLoad, divs, scale, hoursInMonth. cbn [map seq].
  assert (H : forall i h, (0 <= h <= 744)%Z -> month_hours i = IZR h ->
    right_to_13 (sdiv (Bmult mode_NE (z2d h) (Bplus mode_NE (Bmult mode_NE a wk) (Bmult mode_NE b rest))) (z2d 1000)) (appliances_exact tt a b i)).
  { intros i h B E. unfold appliances_exact. rewrite E. exact (month_near a b h PA PB B). }
  repeat (constructor; [apply H; [lia|unfold month_hours; cbn [nth days_in_month]; rewrite <- mult_IZR; reflexivity]|]). constructor.
Qed.
Lemma series_right k rows v rs : is_series k rows v -> Forall2 right_to_13 v rs -> column_right k rows rs.
Proof.
  intros S. revert rs. induction S as [|row x rows v E S IH]; intros rs F; inversion F; subst; constructor; [exists x; split; assumption|apply IH; assumption].
Qed.
Lemma C116_l : forall w rows, appliance_powers p -> simulateMonthly p w = Ok rows ->
  column_right elec_int_equip rows (map (appliances_exact tt (bu_elecApplianceOcc (pa_building p)) (bu_elecApplianceUnocc (pa_building p))) (seq 0 12)) /\
  column_right gas_equip rows (map (appliances_exact tt (bu_gasApplianceOcc (pa_building p)) (bu_gasApplianceUnocc (pa_building p))) (seq 0 12)).
Proof.
  intros w rows [[E1 E2] [G1 G2]] H. destruct (simulateMonthly_cases p w rows H) as (m & R & TS & C). pose proof (rn_oc _ _ _ R) as OC.
  unfold columns, outputColumns in C. cbv zeta in C. rewrite OC in C.
  split; [apply (series_right _ _ _ _ (C elec_int_equip _ eq_refl))|apply (series_right _ _ _ _ (C gas_equip _ eq_refl))]; apply plug_near; assumption.
Qed.
End D.

(** ** The office *)
Lemma office_m_whole {L : libm} : whole_hours (@monthlyOffice double (dbl_num L)) office_hours.
Proof. unfold whole_hours. split; [|split; [|split]]; [exact (z2d_val 8 ltac:(lia))|exact (z2d_val 17 ltac:(lia))|exact (z2d_val 1 ltac:(lia))|exact (z2d_val 5 ltac:(lia))]. Qed.
Lemma office_in_week : in_week office_hours.
Proof. unfold in_week, office_hours. cbn. lia. Qed.
Lemma office_share : open_share office_hours = 45 / 168.
Proof. reflexivity. Qed.
Lemma office_appliances {L : libm} : appliance_powers (@monthlyOffice double (dbl_num L)).
Proof. constructor; split; apply power_check; vm_compute; reflexivity. Qed.
