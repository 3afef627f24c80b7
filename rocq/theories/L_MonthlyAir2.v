(** A house, the draughtier house, and the house without leakage. *)
From Coq Require Import Reals Lra Psatz ZArith List Bool Lia.
From Verif Require Import Base Num Xr M_Params M_Monthly M_Map L_Xr L_HourlyShape L_HourlyFin2 L_Office S_Calendar S_Schedule S_Results S_Monthly S_Physical S_MonthlySound S_MonthlyHeat S_MonthlyPlant S_MonthlyCompare S_MonthlyAir
  L_Monthly L_Monthly2 L_Monthly3 L_Monthly4 L_Monthly5 L_MonthlyFin L_MonthlyFin2 L_MonthlyNaN L_MonthlyGain L_MonthlyNeed L_MonthlyTemp L_MonthlyVent L_MonthlyCase L_MonthlyPlant L_MonthlyPlant2
  E_SmallOffice E_Monthly E_House L_MonthlyHouse L_MonthlyHouse2 L_MonthlyCompare L_MonthlyCompare2 L_MonthlyClimate L_MonthlyAir.
Import ListNotations.
Open Scope R_scope.

Lemma house_rate x e : st_infiltrationRate (pa_structure (house x e 0 0)) = 1.
Proof. change (st_infiltrationRate _) with (@zn R _ 1). now rewrite zn_R. Qed.
Lemma house_recovery x e : ve_heatRecoveryEfficiency (pa_ventilation (house x e 0 0)) = 0.
Proof. change (ve_heatRecoveryEfficiency _) with (@zn R _ 0). now rewrite zn_R. Qed.
Lemma air_run p n e w m : monthlyAll (map_params Fin p) (fin_weather w) = Ok m -> exists m', monthlyAll (map_params Fin (with_air p n e)) (fin_weather w) = Ok m'.
Proof. intros M. apply monthlyAll_iff. exact (proj1 (monthlyAll_iff _ _) (ex_intro _ _ M)). Qed.

Lemma C113_case_l : let p := house 2 0 0 0 in let q := with_air p 3 0 in let w := steadyYear 14 in
  sound p /\ vent_nonneg p /\ 0 <= envelope_UA (pa_structure p) /\ 0 < utilisation_exponent p /\ 0 < st_infiltrationRate (pa_structure p) /\ draughtier p 3 0 /\
  exists m m', monthlyAll (map_params Fin p) (fin_weather w) = Ok m /\ monthlyAll (map_params Fin q) (fin_weather w) = Ok m' /\
  forall i, (i < 12)%nat ->
  (forall t tc te hve hvc sol phi, month_data p w m i t tc te hve hvc sol phi ->
     0 < month_loss (envelope_UA (pa_structure p)) (st_floorArea (pa_structure p)) hve t te i /\ 0 < month_loss (envelope_UA (pa_structure p)) (st_floorArea (pa_structure p)) hvc tc te i /\ 0 < month_gain phi sol i) /\
  exists a b ac bc, nth_error (ne_ht (mr_needs m)) i = Some (Fin a) /\ nth_error (ne_ht (mr_needs m')) i = Some (Fin b) /\
    nth_error (ne_cl (mr_needs m)) i = Some (Fin ac) /\ nth_error (ne_cl (mr_needs m')) i = Some (Fin bc).
Proof.
  cbv zeta. set (p := house 2 0 0 0). set (q := with_air p 3 0).
  assert (UA : envelope_UA (pa_structure p) = 90) by (change (pa_structure p) with (houseStructure (0 : R)); apply house_UA).
  assert (RT : st_infiltrationRate (pa_structure p) = 1) by apply house_rate. assert (HR : ve_heatRecoveryEfficiency (pa_ventilation p) = 0) by apply house_recovery.
  assert (DR : draughtier p 3 0) by (split; rewrite ?RT, ?HR; lra). assert (SP : sound p) by apply house_sound. assert (VN : vent_nonneg p) by apply house_vent. assert (EP : 0 < utilisation_exponent p) by apply house_exponent.
  split; [exact SP|]. split; [exact VN|]. split; [lra|]. split; [exact EP|]. split; [lra|]. split; [exact DR|].
  destruct (house_run 2 0 0 0 14) as (m & rows & M & _). fold p in M. destruct (air_run p 3 0 _ _ M) as (m' & M'). fold q in M'. exists m, m'. split; [exact M|]. split; [exact M'|]. clear rows.
  intros i I. pose proof (house_months 2 0 0 0 14 m i ltac:(apply Rabs_le; lra) ltac:(apply Rabs_le; lra) M I) as (D & N1 & N2). cbv zeta in *. fold p in D, N1, N2.
  pose proof (ms_bounds i I) as B. pose proof (house_air_bound 0 0 0 0 14 24 ltac:(apply Rabs_le; lra)) as A1. pose proof (house_air_bound 0 0 0 0 14 28 ltac:(apply Rabs_le; lra)) as A2.
  pose proof dblmin_small as DS. pose proof Rdblmin_pos as DP.
  assert (HL : month_loss 90 100 (airFlow 14 24) 24 14 i = hLoss 14 24 * month_megaseconds i) by reflexivity. assert (HK : month_loss 90 100 (airFlow 14 28) 28 14 i = hLoss 14 28 * month_megaseconds i) by reflexivity.
  assert (BL : 900 * month_megaseconds i <= hLoss 14 24 * month_megaseconds i) by (unfold hLoss; apply Rmult_le_compat_r; lra).
  assert (BK : 900 * month_megaseconds i <= hLoss 14 28 * month_megaseconds i) by (unfold hLoss; apply Rmult_le_compat_r; lra).
  assert (AR : st_floorArea (pa_structure p) = 100) by (change (st_floorArea (pa_structure p)) with (@zn R _ 100); now rewrite zn_R).
  split.
  { intros t tc te hve hvc sol phi [X1 X2 X3 X4 X5 X6 X7]. destruct D as [Y1 Y2 Y3 Y4 Y5 Y6 Y7]. rewrite UA, AR.
    rewrite Y1 in X1. injection X1 as <-. rewrite Y2 in X2. injection X2 as <-. rewrite Y3 in X3. injection X3 as <-. rewrite Y4 in X4. injection X4 as <-. rewrite Y5 in X5. injection X5 as <-.
    rewrite Y6 in X6. injection X6 as <-. rewrite Y7 in X7. injection X7 as <-. rewrite HL, HK. split; [lra|]. split; [lra|]. unfold month_gain. lra. }
  destruct (month_balance q (steadyYear 14) m' i (air_sound p 3 0 SP) M' I) as (t' & tc' & te' & hve' & hvc' & sol' & phi' & D' & N1' & N2'). cbv zeta in N1', N2'.
  destruct (same_but_air p 3 0 _ m m' i SP I M M' _ _ _ _ _ _ _ _ _ _ _ _ _ _ D D') as (-> & -> & -> & -> & -> & v & H1 & H1' & H2 & H2'). cbv zeta in H1, H1', H2, H2'.
  pose proof (air_coef p 3 0 _ 14 v 24 SP VN DR ltac:(lra) eq_refl) as HH. fold q in H1', HH. rewrite <- H1, <- H1' in HH.
  pose proof (air_coef p 3 0 _ 14 v 28 SP VN DR ltac:(lra) eq_refl) as HC. fold q in H2', HC. rewrite <- H2, <- H2' in HC.
  pose proof (loss_air p _ hve' 24 14 i SP ltac:(lra) (proj1 A1) HH I) as LM. cbv beta zeta in LM. rewrite UA, AR, HL in LM. specialize (LM ltac:(lra)).
  pose proof (loss_air p _ hvc' 28 14 i SP ltac:(lra) (proj1 A2) HC I) as KM. cbv beta zeta in KM. rewrite UA, AR, HK in KM. specialize (KM ltac:(lra)).
  change (envelope_UA (pa_structure q)) with (envelope_UA (pa_structure p)) in N1', N2'. change (st_floorArea (pa_structure q)) with (st_floorArea (pa_structure p)) in N1', N2'. change (utilisation_exponent q) with (utilisation_exponent p) in N1', N2'. rewrite UA, AR in N1', N2'.
  assert (HG : hGain 2 0 * month_megaseconds i = 200 * month_megaseconds i) by (unfold hGain; lra). assert (HG' : month_gain (100 * 2) (- (110) * 0 * month_megaseconds i) i = 200 * month_megaseconds i) by (unfold month_gain; lra).
  rewrite HG in N1, N2. rewrite HG' in N1', N2'. clear D D' H1 H1' H2 H2' M M' HG HG' HL HK HH HC.
  set (L := hLoss 14 24 * _) in *. set (K := hLoss 14 28 * _) in *. set (L' := month_loss _ _ hve' _ _ _) in *. set (K' := month_loss _ _ hvc' _ _ _) in *. set (s := month_megaseconds i) in *. set (e := utilisation_exponent p) in *. clearbody L K L' K' s e.
  rewrite (proj1 (need_at_pos e L (200 * s) EP ltac:(lra) ltac:(lra) ltac:(lra))) in N1.
  rewrite (proj1 (need_at_pos e L' (200 * s) EP ltac:(lra) ltac:(lra) ltac:(lra))) in N1'.
  rewrite (proj2 (need_at_pos e (200 * s) K EP ltac:(lra) ltac:(lra) ltac:(lra))) in N2.
  rewrite (proj2 (need_at_pos e (200 * s) K' EP ltac:(lra) ltac:(lra) ltac:(lra))) in N2'.
  do 4 eexists. split; [exact N1|]. split; [exact N1'|]. split; [exact N2|exact N2'].
Qed.

(** Without leakage the house needs more heating than with it. *)
Transparent Rdblmax.
Lemma dblmax_huge : 1000000 <= Rdblmax.
Proof.
  unfold Rdblmax. assert (H : 2 ^ 30 <= 2 ^ 1023) by (apply Rle_pow; [lra|repeat constructor]). assert (E : 1000000 <= 2 ^ 30) by lra.
  assert (H2 : 1 < 2 ^ 52) by (apply Rlt_pow_R1; [lra|apply Nat.lt_0_succ]). assert (H3 : / 2 ^ 52 < 1) by (rewrite <- Rinv_1; apply Rinv_lt_contravar; lra).
  revert H E H3. generalize (2 ^ 1023) (2 ^ 30) (/ 2 ^ 52). intros z y x H E H3. assert (1 * z <= (2 - x) * z) by (apply Rmult_le_compat_r; lra). lra.
Qed.
Opaque Rdblmax.
Lemma air_back q n e n' e' : st_infiltrationRate (pa_structure q) = n' -> ve_heatRecoveryEfficiency (pa_ventilation q) = e' -> with_air (with_air q n e) n' e' = q.
Proof. intros <- <-. destruct q as [[] h c [] l b po st ph te]. reflexivity. Qed.
Lemma C113_refuted_l : exists p n w m m', let q := with_air p n 0 in
  sound p /\ vent_nonneg p /\ 0 <= envelope_UA (pa_structure p) /\ 0 < utilisation_exponent p /\ draughtier p n 0 /\ 0 < n /\ st_infiltrationRate (pa_structure p) = 0 /\
  monthlyAll (map_params Fin p) (fin_weather w) = Ok m /\ monthlyAll (map_params Fin q) (fin_weather w) = Ok m' /\
  forall i, (i < 12)%nat ->
  (forall t tc te hve hvc sol phi, month_data p w m i t tc te hve hvc sol phi -> 0 < month_loss (envelope_UA (pa_structure p)) (st_floorArea (pa_structure p)) hve t te i /\ 0 < month_gain phi sol i) /\
  exists a b, nth_error (ne_ht (mr_needs m)) i = Some (Fin a) /\ nth_error (ne_ht (mr_needs m')) i = Some (Fin b) /\ b <= 6000 /\ 1000000 <= a.
Proof.
  set (q := house 2 0 0 0). set (p := with_air q 0 0). exists p, 1, (steadyYear 14).
  assert (EQ : with_air p 1 0 = q) by (apply air_back; [apply house_rate|apply house_recovery]).
  destruct (house_run 2 0 0 0 14) as (m & rows & M & _). fold q in M. destruct (air_run q 0 0 _ _ M) as (m' & M'). fold p in M'. exists m', m. rewrite EQ. cbv zeta.
  assert (UA : envelope_UA (pa_structure p) = 90) by (change (envelope_UA (pa_structure p)) with (envelope_UA (houseStructure (0 : R))); apply house_UA).
  assert (AR : st_floorArea (pa_structure p) = 100) by (change (st_floorArea (pa_structure p)) with (@zn R _ 100); now rewrite zn_R).
  assert (HR : ve_heatRecoveryEfficiency (pa_ventilation q) = 0) by apply house_recovery.
  assert (SQ : sound q) by apply house_sound. assert (SP : sound p) by (apply air_sound; exact SQ).
  assert (VN : vent_nonneg p). { pose proof (house_vent 2 0 0 0) as V. fold q in V. destruct V. constructor; try assumption; [change (0 <= 0)|change (0 <= 1)]; lra. }
  assert (EP : 0 < utilisation_exponent q) by apply house_exponent.
  split; [exact SP|]. split; [exact VN|]. split; [lra|]. split; [exact EP|]. split; [split; [change (0 <= 1)|change (0 <= 0)]; lra|]. split; [lra|]. split; [reflexivity|]. split; [exact M'|]. split; [exact M|].
  intros i I. pose proof (house_months 2 0 0 0 14 m i ltac:(apply Rabs_le; lra) ltac:(apply Rabs_le; lra) M I) as (D & N1 & _). cbv zeta in *. fold q in D, N1.
  pose proof (ms_bounds i I) as B. pose proof (house_air_bound 0 0 0 0 14 24 ltac:(apply Rabs_le; lra)) as A1. pose proof dblmin_small as DS. pose proof Rdblmin_pos as DP. pose proof dblmax_huge as HU.
  destruct (month_balance p (steadyYear 14) m' i SP M' I) as (t' & tc' & te' & hve' & hvc' & sol' & phi' & D' & N1' & _). cbv zeta in N1'.
  destruct (same_but_air q 0 0 _ m m' i SQ I M M' _ _ _ _ _ _ _ _ _ _ _ _ _ _ D D') as (-> & -> & -> & -> & -> & _).
  assert (HB : 1000000 / 4 <= hve').
  { destruct (C59_l p _ m' SP VN eq_refl M' (Fin hve') (or_introl (nth_error_In _ _ (md_hve _ _ _ _ _ _ _ _ _ _ _ D')))) as (h & E & HH). injection E as <-. eapply Rle_trans; [|exact HH].
    change (ph_rhoCpAir (pa_phys p)) with (@lit R _ 122521 100000 * lit 1012 1000000). cbn [lit R_num]. unfold Rlit. lra. }
  assert (BL : hLoss 14 24 * month_megaseconds i <= 5700) by (unfold hLoss; apply Rle_trans with (1900 * 3); [apply Rmult_le_compat; lra|lra]).
  assert (BL0 : 900 * month_megaseconds i <= hLoss 14 24 * month_megaseconds i) by (unfold hLoss; apply Rmult_le_compat_r; lra).
  change (utilisation_exponent p) with (utilisation_exponent q) in N1'. rewrite UA, AR in N1'.
  assert (BP : 2000000 <= month_loss 90 100 hve' 24 14 i). { unfold month_loss. apply Rle_trans with (2000000 * 2 / 2); [lra|]. apply Rle_trans with ((24 - 14) * (90 + 100 * (1000000 / 4)) * 2); [lra|]. apply Rmult_le_compat; lra. }
  assert (HG : hGain 2 0 * month_megaseconds i = 200 * month_megaseconds i) by (unfold hGain; lra). assert (HG' : month_gain (100 * 2) (- (110) * 0 * month_megaseconds i) i = 200 * month_megaseconds i) by (unfold month_gain; lra).
  split.
  { intros t tc te hve hvc sol phi X. destruct (data_unique _ _ _ _ _ _ _ _ _ _ _ _ _ _ _ _ _ _ D' X) as (-> & -> & -> & -> & ->). rewrite UA, AR, HG'. split; lra. }
  rewrite HG in N1. rewrite HG' in N1'.
  set (L := hLoss 14 24 * _) in *. set (L' := month_loss _ _ hve' _ _ _) in *. set (s := month_megaseconds i) in *. set (e := utilisation_exponent q) in *. clearbody L L' s e.
  destruct (balance_pos e L (200 * s) EP ltac:(lra) ltac:(lra) ltac:(lra)) as (_ & _ & UP). destruct (balance_pos e L' (200 * s) EP ltac:(lra) ltac:(lra) ltac:(lra)) as (_ & LOW & _). cbv zeta in UP, LOW.
  rewrite (proj1 (need_at_pos e L (200 * s) EP ltac:(lra) ltac:(lra) ltac:(lra))) in N1.
  rewrite (proj1 (need_at_pos e L' (200 * s) EP ltac:(lra) ltac:(lra) ltac:(lra))) in N1'.
  pose proof (Rmax_r 0 (L' - 200 * s)). do 2 eexists. split; [exact N1'|]. split; [exact N1|]. split; lra.
Qed.
