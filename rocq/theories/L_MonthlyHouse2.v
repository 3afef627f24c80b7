(** C29, C30, C31, C35, C60, C61: months without zero divisors, and houses with one. *)
From Coq Require Import Reals Lra Psatz ZArith List Bool Lia.
From Verif Require Import Base Num Xr M_Params M_Monthly M_Map L_Xr L_HourlyShape L_HourlyFin2 L_Office S_Calendar S_Schedule S_Results S_Monthly S_Physical S_MonthlySound S_MonthlyHeat S_MonthlyPlant
  L_Monthly L_Monthly2 L_Monthly3 L_Monthly4 L_Monthly5 L_MonthlyFin L_MonthlyFin2 L_MonthlyNaN L_MonthlyGain L_MonthlyNeed L_MonthlyTemp L_MonthlyVent L_MonthlyCase L_MonthlyPlant L_MonthlyPlant2
  E_SmallOffice E_Monthly E_House L_MonthlyHouse.
Import ListNotations.
Open Scope R_scope.

(** *** Finite needs *)
Lemma all_fin (l : list xr) : (forall i x, nth_error l i = Some x -> exists r, x = Fin r) -> exists q, l = map Fin q.
Proof.
  induction l as [|a l IH]; intros H; [now exists []|]. destruct (H 0%nat a eq_refl) as (r & ->). destruct IH as (q & ->); [intros i x E; exact (H (S i) x E)|]. now exists (r :: q).
Qed.
Lemma needH_fin a L K G : 0 < a -> clear_month L K G -> exists r, nsub (Fin L) (nmul (etaHeating (Fin a) (Fin (sdiv G (L + Rdblmin)))) (Fin G)) = Fin r.
Proof.
  intros A [C1 C2 C3 C4 C5]. rewrite sdiv_R by exact C1. set (g := G / (L + Rdblmin)) in *. assert (E : exists y, etaHeating (Fin a) (Fin g) = Fin y).
  { destruct (Rlt_dec 0 g) as [P|P]; [rewrite etaH_pos; [eauto|exact P| |lra]|rewrite etaH_neg; [eauto|lra|exact C3]].
    intros Q. apply C2. unfold g in Q. rewrite <- (Rmult_1_l (L + Rdblmin)), <- Q. field. exact C1. }
  destruct E as (y & ->). rewrite mul_fin, sub_fin. eauto.
Qed.
Lemma needC_fin a L K G : 0 < a -> clear_month L K G -> exists r, nsub (Fin G) (nmul (etaCooling (Fin a) (Fin (sdiv K (G + Rdblmin)))) (Fin K)) = Fin r.
Proof.
  intros A [C1 C2 C3 C4 C5]. rewrite sdiv_R by exact C4. set (g := K / (G + Rdblmin)) in *. assert (E : exists y, etaCooling (Fin a) (Fin g) = Fin y).
  { destruct (Rlt_dec 0 g) as [P|P]; [rewrite etaC_pos; [eauto|exact P| |lra]|rewrite etaC_neg; [eauto|lra]].
    intros Q. apply C5. unfold g in Q. rewrite <- (Rmult_1_l (G + Rdblmin)), <- Q. field. exact C4. }
  destruct E as (y & ->). rewrite mul_fin, sub_fin. eauto.
Qed.
Lemma C60_needs_l p w m : sound p -> 0 < utilisation_exponent p -> monthlyAll (map_params Fin p) (fin_weather w) = Ok m ->
  (forall i t tc te hve hvc sol phi, (i < 12)%nat -> month_data p w m i t tc te hve hvc sol phi ->
     let A := st_floorArea (pa_structure p) in let UA := envelope_UA (pa_structure p) in clear_month (month_loss UA A hve t te i) (month_loss UA A hvc tc te i) (month_gain phi sol i)) ->
  exists qh qc, ne_ht (mr_needs m) = map Fin qh /\ ne_cl (mr_needs m) = map Fin qc /\ length qh = 12%nat /\ length qc = 12%nat.
Proof.
  intros S A M CM. assert (RU := monthlyAll_run _ _ _ M). destruct (run_lengths _ _ _ RU) as (_ & _ & L1 & L2 & _).
  destruct (all_fin (ne_ht (mr_needs m))) as (qh & QH).
  { intros i x E. assert (I : (i < 12)%nat) by (rewrite <- L1; apply nth_error_Some; congruence). destruct (month_balance p w m i S M I) as (t & tc & te & hve & hvc & sol & phi & D & N1 & _). cbv zeta in *.
    rewrite N1 in E. injection E as <-. exact (needH_fin _ _ _ _ A (CM i t tc te hve hvc sol phi I D)). }
  destruct (all_fin (ne_cl (mr_needs m))) as (qc & QC).
  { intros i x E. assert (I : (i < 12)%nat) by (rewrite <- L2; apply nth_error_Some; congruence). destruct (month_balance p w m i S M I) as (t & tc & te & hve & hvc & sol & phi & D & _ & N2). cbv zeta in *.
    rewrite N2 in E. injection E as <-. exact (needC_fin _ _ _ _ A (CM i t tc te hve hvc sol phi I D)). }
  exists qh, qc. split; [exact QH|]. split; [exact QC|]. rewrite QH, map_length in L1. rewrite QC, map_length in L2. now split.
Qed.
Lemma C60_l p w m rows : sound p -> 0 < utilisation_exponent p -> plant_ok p -> water_ok p -> monthlyAll (map_params Fin p) (fin_weather w) = Ok m -> simulateMonthly (map_params Fin p) (fin_weather w) = Ok rows ->
  (forall i t tc te hve hvc sol phi, (i < 12)%nat -> month_data p w m i t tc te hve hvc sol phi ->
     let A := st_floorArea (pa_structure p) in let UA := envelope_UA (pa_structure p) in clear_month (month_loss UA A hve t te i) (month_loss UA A hvc tc te i) (month_gain phi sol i)) ->
  exists qh qc, ne_ht (mr_needs m) = map Fin qh /\ ne_cl (mr_needs m) = map Fin qc /\ (Rsum qh + Rsum qc <> 0 -> forall row x, In row rows -> In x row -> exists r, x = Fin r).
Proof.
  intros S A OK WA M SM CM. destruct (C60_needs_l p w m S A M CM) as (qh & qc & QH & QC & _). exists qh, qc. split; [exact QH|]. split; [exact QC|]. intros T. exact (C60_table_l p w m rows qh qc S OK WA M SM QH QC T).
Qed.

(** *** A need that is not a number spoils the year *)
Lemma nan_column p w m rows : 0 < st_floorArea (pa_structure p) -> 0 < ht_efficiency (pa_heating p) -> ht_DH_YesNo (pa_heating p) <> 1 ->
  monthlyAll (map_params Fin p) w = Ok m -> simulateMonthly (map_params Fin p) w = Ok rows -> In NaN (ne_ht (mr_needs m)) ->
  forall row x, In row rows -> nth_error row (if Req_EM_T (ht_energyType (pa_heating p)) 1 then elec_heating else gas_heating) = Some x -> x = NaN.
Proof.
  intros HA HE HD M SM NI. destruct (simulate_columns _ _ _ _ M SM) as (R & _ & S').
  assert (Y : ne_ht_yr (mr_needs m) = NaN). { assert (YS : ne_ht_yr (mr_needs m) = vsum (ne_ht (mr_needs m))) by (rewrite (rn_needs _ _ _ R); reflexivity). rewrite YS. now apply acc_nan. }
  assert (G : forall v, nans v -> forall k, is_series k rows (perArea (Fin (st_floorArea (pa_structure p))) v) -> forall row x, In row rows -> nth_error row k = Some x -> x = NaN).
  { intros v V k S. apply (series_forall k rows _ _ S). intros x I. unfold perArea, divs in I. rewrite map_map in I. apply in_map_iff in I.
    destruct I as (y & <- & I). rewrite (V y I), sdiv_nan_l by lra. rewrite kWh_fin. apply sdiv_nan_l. pose proof kWh_pos. lra. }
  assert (LS : nans (distLoss (ne_ht (mr_needs m)) (distHt (map_params Fin p) (ne_ht_yr (mr_needs m)) (ne_cl_yr (mr_needs m))))).
  { assert (Q : distHt (map_params Fin p) (ne_ht_yr (mr_needs m)) (ne_cl_yr (mr_needs m)) = NaN) by (unfold distHt, demandHt; rewrite Y; reflexivity).
    rewrite Q. unfold distLoss, divs. intros x I. apply in_map_iff in I. destruct I as (y & <- & _). apply sdiv_nan_r. }
  assert (SY : nans (divs (vadd (distLoss (ne_ht (mr_needs m)) (distHt (map_params Fin p) (ne_ht_yr (mr_needs m)) (ne_cl_yr (mr_needs m)))) (ne_ht (mr_needs m))) (ht_efficiency (pa_heating (map_params Fin p)) + ndblmin)%num)).
  { apply nans_map; [|apply nans_zip_l; [exact add_nan_l|exact LS]]. change (ht_efficiency (pa_heating (map_params Fin p))) with (Fin (ht_efficiency (pa_heating p))). rewrite dblmin_fin, add_fin.
    apply sdiv_nan_l. ops. pose proof Rdblmin_pos. lra. }
  pose proof (S' elec_heating _ eq_refl) as S1. pose proof (S' gas_heating _ eq_refl) as S2. rewrite (rn_hvac _ _ _ R) in S1, S2.
  unfold hvac in S1, S2. cbn [hv_elec_ht hv_gas_ht] in S1, S2.
  change (ht_DH_YesNo (pa_heating (map_params Fin p))) with (Fin (ht_DH_YesNo (pa_heating p))) in S1, S2.
  change (ht_energyType (pa_heating (map_params Fin p))) with (Fin (ht_energyType (pa_heating p))) in S1, S2.
  change (st_floorArea (pa_structure (map_params Fin p))) with (Fin (st_floorArea (pa_structure p))) in S1, S2.
  rewrite (zn_fin 1), zn_R, !eqb_fin in S1, S2. cbn [neqb R_num] in S1, S2. rewrite (Reqb_false (ht_DH_YesNo _)) in S1, S2 by exact HD.
  destruct (Req_EM_T (ht_energyType (pa_heating p)) 1) as [E|E].
  - rewrite (Reqb_true _ _ E) in S1. intros row x. apply (G _ SY _ S1).
  - rewrite (Reqb_false _ _ E) in S2. intros row x. refine (G _ _ _ S2 row x). apply nans_zip_l; [exact add_nan_l|exact SY].
Qed.

(** *** Numbers *)
Lemma series_in k (rs : list (list xr)) v : is_series k rs v -> forall row, In row rs -> exists x, nth_error row k = Some x /\ In x v.
Proof. intros F. induction F as [|r y rs v E F IH]; intros row I; [destruct I|]. destruct I as [<-|I]; [exists y; split; [exact E|now left]|]. destruct (IH row I) as (z & Z & J). exists z. split; [exact Z|now right]. Qed.
Lemma dblmin_small : Rdblmin <= 1 / 1000000.
Proof.
  Local Transparent Rdblmin. unfold Rdblmin. assert (2 ^ 20 <= 2 ^ 1022) by (apply Rle_pow; [lra|apply Nat.le_add_r with (n := 20%nat) (m := 1002%nat)]).
  assert (1000000 <= 2 ^ 20) by (cbn; lra). unfold Rdiv. rewrite Rmult_1_l. apply Rinv_le_contravar; lra.
Qed.
Lemma ms_bounds i : (i < 12)%nat -> 2 <= month_megaseconds i <= 3.
Proof. intros I. unfold month_megaseconds. do 12 (destruct i as [|i]; [cbn; lra|]). lia. Qed.
Lemma months_eq (l : list xr) (f : nat -> R) : length l = 12%nat -> (forall i, (i < 12)%nat -> nth_error l i = Some (Fin (f i))) -> l = map Fin (map f (seq 0 12)).
Proof.
  intros L H. destruct l as [|a0 [|a1 [|a2 [|a3 [|a4 [|a5 [|a6 [|a7 [|a8 [|a9 [|a10 [|a11 [|? ?]]]]]]]]]]]]]; try discriminate L.
  pose proof (H 0%nat ltac:(lia)) as H0. pose proof (H 1%nat ltac:(lia)) as H1. pose proof (H 2%nat ltac:(lia)) as H2. pose proof (H 3%nat ltac:(lia)) as H3.
  pose proof (H 4%nat ltac:(lia)) as H4. pose proof (H 5%nat ltac:(lia)) as H5. pose proof (H 6%nat ltac:(lia)) as H6. pose proof (H 7%nat ltac:(lia)) as H7.
  pose proof (H 8%nat ltac:(lia)) as H8. pose proof (H 9%nat ltac:(lia)) as H9. pose proof (H 10%nat ltac:(lia)) as H10. pose proof (H 11%nat ltac:(lia)) as H11.
  clear H L. cbn [nth_error] in *. cbn [map seq]. congruence.
Qed.
Lemma sum12 (f : nat -> R) : Rsum (map f (seq 0 12)) = f 0%nat + (f 1%nat + (f 2%nat + (f 3%nat + (f 4%nat + (f 5%nat + (f 6%nat + (f 7%nat + (f 8%nat + (f 9%nat + (f 10%nat + (f 11%nat + 0))))))))))).
Proof. reflexivity. Qed.
Lemma sum12_pos f : (forall i, (i < 12)%nat -> 0 < f i) -> 0 < Rsum (map f (seq 0 12)).
Proof.
  intros H. rewrite sum12. pose proof (H 0%nat ltac:(lia)). pose proof (H 1%nat ltac:(lia)). pose proof (H 2%nat ltac:(lia)). pose proof (H 3%nat ltac:(lia)).
  pose proof (H 4%nat ltac:(lia)). pose proof (H 5%nat ltac:(lia)). pose proof (H 6%nat ltac:(lia)). pose proof (H 7%nat ltac:(lia)).
  pose proof (H 8%nat ltac:(lia)). pose proof (H 9%nat ltac:(lia)). pose proof (H 10%nat ltac:(lia)). pose proof (H 11%nat ltac:(lia)). lra.
Qed.
Lemma house_lengths x e ec dc te m : monthlyAll (map_params Fin (house x e ec dc)) (fin_weather (steadyYear te)) = Ok m -> length (ne_ht (mr_needs m)) = 12%nat /\ length (ne_cl (mr_needs m)) = 12%nat.
Proof. intros M. apply monthlyAll_run in M. destruct (run_lengths _ _ _ M) as (_ & _ & A & B & _). now split. Qed.

(** *** Gains equal losses: January has no need, and the year no heating *)
Lemma C29_refuted_l : exists p w m rows, sound p /\ 0 < utilisation_exponent p /\ plant_ok p /\ monthlyAll (map_params Fin p) (fin_weather w) = Ok m /\ simulateMonthly (map_params Fin p) (fin_weather w) = Ok rows /\
  nth_error (ne_ht (mr_needs m)) 0 = Some NaN /\ forall row x, In row rows -> nth_error row gas_heating = Some x -> x = NaN.
Proof.
  set (ms := month_megaseconds 0). pose proof (ms_bounds 0 ltac:(lia)) as B. fold ms in B. set (x := (hLoss 10 24 * ms + Rdblmin) / (100 * ms)).
  destruct (house_run x 0 0 0 10) as (m & rows & M & SM). exists (house x 0 0 0), (steadyYear 10), m, rows.
  split; [apply house_sound|]. split; [apply house_exponent|]. split; [apply house_plant|]. split; [exact M|]. split; [exact SM|].
  assert (N : nth_error (ne_ht (mr_needs m)) 0 = Some NaN).
  { destruct (house_months x 0 0 0 10 m 0) as (_ & N & _); try (apply Rabs_le; lra); [exact M|lia|]. cbv zeta in N. fold ms in N.
    assert (E : hGain x 0 * ms = hLoss 10 24 * ms + Rdblmin) by (unfold hGain, x; field; lra). rewrite E in N. rewrite N. f_equal. apply need_at_one.
    unfold hLoss. pose proof (house_air_bound x 0 0 0 10 24 ltac:(apply Rabs_le; lra)). apply Rmult_lt_0_compat; lra. }
  split; [exact N|]. pose proof (nan_column (house x 0 0 0) (fin_weather (steadyYear 10)) m rows (pl_area _ (house_plant x 0 0 0)) (pl_eff _ (house_plant x 0 0 0))) as X.
  change (ht_DH_YesNo (pa_heating (house x 0 0 0))) with (@zn R _ 0) in X. change (ht_energyType (pa_heating (house x 0 0 0))) with (@zn R _ 2) in X. rewrite !zn_R in X. destruct (Req_EM_T 2 1) as [Q|_]; [lra|].
  apply X; [lra|exact M|exact SM|]. apply nth_error_In in N. exact N.
Qed.

(** *** No gains, hot outside: heating is negative *)
Definition hotLoss (i : nat) : R := hLoss 28 24 * month_megaseconds i.
Lemma hotLoss_neg i : (i < 12)%nat -> hotLoss i < - (700).
Proof.
  intros I. pose proof (ms_bounds i I) as B. unfold hotLoss, hLoss. pose proof (house_air_bound 0 0 0 0 28 24 ltac:(apply Rabs_le; lra)) as A. set (h := airFlow 28 24) in *.
  set (s := month_megaseconds i) in *. assert (90 * 2 <= (90 + 100 * h) * s) by (apply Rmult_le_compat; lra). lra.
Qed.
Lemma hot_house ec : exists m rows, monthlyAll (map_params Fin (house 0 0 ec 0)) (fin_weather (steadyYear 28)) = Ok m /\ simulateMonthly (map_params Fin (house 0 0 ec 0)) (fin_weather (steadyYear 28)) = Ok rows /\
  ne_ht (mr_needs m) = map Fin (map hotLoss (seq 0 12)) /\ ne_cl (mr_needs m) = map Fin (map (fun _ => 0) (seq 0 12)).
Proof.
  destruct (house_run 0 0 ec 0 28) as (m & rows & M & SM). exists m, rows. split; [exact M|]. split; [exact SM|]. destruct (house_lengths _ _ _ _ _ _ M) as [L1 L2].
  assert (D : forall i, (i < 12)%nat -> nth_error (ne_ht (mr_needs m)) i = Some (Fin (hotLoss i)) /\ nth_error (ne_cl (mr_needs m)) i = Some (Fin 0)).
  { intros i I. destruct (house_months 0 0 ec 0 28 m i) as (_ & N1 & N2); try (apply Rabs_le; lra); [exact M|exact I|]. cbv zeta in N1, N2. fold (hotLoss i) in N1. pose proof (hotLoss_neg i I) as HN. pose proof dblmin_small as DS. pose proof Rdblmin_pos as DP.
    assert (EG : hGain 0 0 * month_megaseconds i = 0) by (unfold hGain; ring). assert (EK : hLoss 28 28 * month_megaseconds i = 0) by (unfold hLoss; ring). rewrite EG in N1, N2. rewrite EK in N2. split.
    - rewrite N1. f_equal. rewrite sdiv_R by lra. replace (0 / (hotLoss i + Rdblmin)) with 0 by (field; lra). rewrite etaH_neg by lra. rewrite mul_fin, sub_fin. f_equal. ops. ring.
    - rewrite N2. f_equal. rewrite sdiv_R by lra. replace (0 / (0 + Rdblmin)) with 0 by (field; lra). rewrite etaC_neg by lra. rewrite mul_fin, sub_fin. f_equal. ops. ring. }
  split; apply months_eq; try assumption; intros i I; apply (D i I).
Qed.
Lemma hot_sum : Rsum (map hotLoss (seq 0 12)) < 0 /\ Rsum (map (fun _ : nat => 0) (seq 0 12)) = 0.
Proof.
  split; [|rewrite sum12; lra]. pose proof (sum12_pos (fun i => - hotLoss i)) as P. assert (0 < Rsum (map (fun i => - hotLoss i) (seq 0 12))) by (apply P; intros i I; pose proof (hotLoss_neg i I); lra).
  rewrite sum12 in *. lra.
Qed.
Lemma C35_refuted_l : exists p w rows, sound p /\ vent_nonneg p /\ plant_ok p /\ water_ok p /\ uses_nonneg p /\ simulateMonthly (map_params Fin p) (fin_weather w) = Ok rows /\
  forall row, In row rows -> exists r, nth_error row gas_heating = Some (Fin r) /\ r < 0.
Proof.
  destruct (hot_house 1) as (m & rows & M & SM & H & C). exists (house 0 0 1 0), (steadyYear 28), rows.
  split; [apply house_sound|]. split; [apply house_vent|]. split; [apply house_plant|]. split; [apply house_water|]. split; [apply house_uses; lra|]. split; [exact SM|].
  destruct hot_sum as [S1 S2]. destruct (C30_l (house 0 0 1 0) _ m rows _ _ (house_plant 0 0 1 0) M SM H C ltac:(lra)) as (_ & P & _). cbv zeta in P.
  change (ht_DH_YesNo (pa_heating (house 0 0 1 0))) with (@zn R _ 0) in P. change (ht_energyType (pa_heating (house 0 0 1 0))) with (@zn R _ 2) in P. rewrite !zn_R in P. destruct P as [_ P]; [lra|lra|].
  intros row I. destruct (series_in _ _ _ P row I) as (y & Y & J). rewrite Y. apply in_map_iff in J. destruct J as (q & <- & J). eexists. split; [reflexivity|].
  apply in_map_iff in J. destruct J as (i & <- & J). apply in_seq in J. pose proof (hotLoss_neg i ltac:(lia)) as HN. pose proof (house_plant 0 0 1 0) as [pA pl pc pw pe pp pd pD pa]. pose proof Rdblmin_pos as DP. pose proof kWh_pos as KP.
  assert (LN : with_heating_losses (house 0 0 1 0) (map hotLoss (seq 0 12)) (map (fun _ : nat => 0) (seq 0 12)) (hotLoss i) < 0).
  { unfold with_heating_losses. set (s := heating_share _ _). assert (SP : 0 < s) by apply share_pos.
    assert (0 <= ht_hotcoldWasteFactor (pa_heating (house 0 0 1 0)) / s) by (apply Rmult_le_pos; [exact pw|now apply Rlt_le, Rinv_0_lt_compat]).
    assert (0 <= - hotLoss i * (ht_hvacLossFactor (pa_heating (house 0 0 1 0)) + ht_hotcoldWasteFactor (pa_heating (house 0 0 1 0)) / s)) by (apply Rmult_le_pos; lra). lra. }
  unfold kWh_m2, Rdiv. set (z := with_heating_losses _ _ _ _) in *. clearbody z.
  assert (0 < - z * / (ht_efficiency (pa_heating (house 0 0 1 0)) + Rdblmin) * / st_floorArea (pa_structure (house 0 0 1 0)) * / MJ_per_kWh).
  { repeat apply Rmult_lt_0_compat; try lra; apply Rinv_0_lt_compat; lra. }
  lra.
Qed.

(** *** One rated pump power is zero *)
Lemma C31_refuted_l : exists p w m rows qh qc, sound p /\ plant_ok p /\ monthlyAll (map_params Fin p) (fin_weather w) = Ok m /\ simulateMonthly (map_params Fin p) (fin_weather w) = Ok rows /\
  ne_ht (mr_needs m) = map Fin qh /\ ne_cl (mr_needs m) = map Fin qc /\ Rsum qh + Rsum qc <> 0 /\ (forall q, In q qc -> q = 0) /\ cl_E_pumps (pa_cooling p) = 0 /\
  forall row, In row rows -> exists r, nth_error row elec_pumps = Some (Fin r) /\ Rdblmax / 100 / MJ_per_kWh <= r.
Proof.
  destruct (hot_house 0) as (m & rows & M & SM & H & C). exists (house 0 0 0 0), (steadyYear 28), m, rows. do 2 eexists.
  split; [apply house_sound|]. split; [apply house_plant|]. split; [exact M|]. split; [exact SM|]. split; [exact H|]. split; [exact C|]. destruct hot_sum as [S1 S2]. split; [lra|].
  split; [intros q J; apply in_map_iff in J; destruct J as (i & <- & _); reflexivity|]. split; [reflexivity|].
  set (p := house 0 0 0 0) in *. destruct (pump_column p _ m rows _ _ (pl_area _ (house_plant 0 0 0 0)) M SM H C) as (P & _ & _).
  set (qh := map hotLoss (seq 0 12)) in *. set (qc := map (fun _ : nat => 0) (seq 0 12)) in *.
  destruct (pump_R p qh qc eq_refl ltac:(lra)) as [_ Q]. cbv zeta in Q.
  assert (QC : pumpQ p (cl_E_pumps (pa_cooling p)) (cl_pumpControlReduction (pa_cooling p)) = 0) by (unfold pumpQ; change (cl_E_pumps (pa_cooling p)) with 0; ring).
  assert (QH : 0 <= pumpQ p (ht_E_pumps (pa_heating p)) (ht_pumpControlReduction (pa_heating p))).
  { unfold pumpQ. change (ht_E_pumps (pa_heating p)) with (25 / 100). change (ht_pumpControlReduction (pa_heating p)) with (@zn R _ 1). change (st_floorArea (pa_structure p)) with (@zn R _ 100). rewrite !zn_R. lra. }
  rewrite Q in P by (right; exact QC). rewrite QC in P. set (Qh := pumpQ p (ht_E_pumps _) _) in *.
  assert (V : vadd qh qc = qh) by (unfold vadd, qh, qc; cbn [map seq zipw]; ops; rewrite !Rplus_0_r; reflexivity). rewrite V in P.
  assert (NZ : forall q, In q qh -> q <> 0) by (intros q J; apply in_map_iff in J; destruct J as (i & <- & J); apply in_seq in J; pose proof (hotLoss_neg i ltac:(lia)); lra).
  assert (E1 : vdiv qh qh = map (fun _ => 1) qh). { clear - NZ. unfold vdiv. induction qh as [|a l IH]; [reflexivity|]. cbn [zipw map]. rewrite IH by (intros; apply NZ; now right). rewrite sdiv_R by (apply NZ; now left). f_equal. field. apply NZ. now left. }
  assert (E2 : vdiv qc qh = map (fun _ => 0) qh).
  { assert (L : qc = map (fun _ => 0) qh) by reflexivity. rewrite L. clear - NZ. unfold vdiv. induction qh as [|a l IH]; [reflexivity|]. cbn [zipw map]. rewrite IH by (intros; apply NZ; now right). rewrite sdiv_R by (apply NZ; now left). f_equal. field. apply NZ. now left. }
  rewrite E1, E2 in P.
  assert (Z0 : Rsum (map (fun _ : R => 0) qh) = 0) by (unfold qh; rewrite map_map; rewrite sum12; lra).
  assert (Z1 : Rsum (map (fun _ : R => 1) qh) = 12) by (unfold qh; rewrite map_map; rewrite sum12; lra).
  rewrite Z0, Z1 in P.
  intros row I. destruct (series_in _ _ _ P row I) as (y & Y & J). rewrite Y. rewrite map_map in J. apply in_map_iff in J. destruct J as (q & <- & J). eexists. split; [reflexivity|].
  apply in_vadd in J. destruct J as (a & b & Ja & Jb & ->). unfold divs, scale in Ja, Jb. rewrite !map_map in Ja, Jb. apply in_map_iff in Ja. destruct Ja as (u & <- & _). apply in_map_iff in Jb. destruct Jb as (v & <- & _).
  assert (SM0 : @sdiv R _ (nmul 0 0) 0 = Rdblmax) by (unfold sdiv; rewrite zn_R; change (@neqb R _ 0 0) with (Reqb 0 0); rewrite (Reqb_true 0 0 eq_refl); reflexivity). rewrite SM0, sdiv_R by lra.
  unfold kWh_m2. change (st_floorArea (pa_structure p)) with (@zn R _ 100). rewrite zn_R. pose proof kWh_pos as KP. unfold Rdiv. apply Rmult_le_compat_r; [apply Rlt_le, Rinv_0_lt_compat, KP|]. ops. lra.
Qed.

(** *** A hot place with appliances: everything is finite *)
Definition warmHeat (i : nat) : R := let L := hLoss 30 24 * month_megaseconds i in let G := 1000 * month_megaseconds i in L - 1 / (G / (L + Rdblmin) + Rdblmin) * G.
Definition warmCool (i : nat) : R := 1000 * month_megaseconds i - hLoss 30 28 * month_megaseconds i.
Lemma warm_numbers i : (i < 12)%nat -> let s := month_megaseconds i in let L := hLoss 30 24 * s in let K := hLoss 30 28 * s in let G := 1000 * s in
  - (3420) <= L <= - (1080) /\ - (1140) <= K <= - (360) /\ 2000 <= G <= 3000.
Proof.
  intros I. pose proof (ms_bounds i I) as B. cbv zeta. unfold hLoss. pose proof (house_air_bound 0 0 0 0 30 24 ltac:(apply Rabs_le; lra)) as A1. pose proof (house_air_bound 0 0 0 0 30 28 ltac:(apply Rabs_le; lra)) as A2.
  set (h := airFlow 30 24) in *. set (k := airFlow 30 28) in *. set (s := month_megaseconds i) in *. clearbody h k s.
  assert (180 <= (90 + 100 * h) * s <= 570). { split; [replace 180 with (90 * 2) by lra|replace 570 with (190 * 3) by lra]; apply Rmult_le_compat; lra. }
  assert (180 <= (90 + 100 * k) * s <= 570). { split; [replace 180 with (90 * 2) by lra|replace 570 with (190 * 3) by lra]; apply Rmult_le_compat; lra. }
  repeat split; lra.
Qed.
Lemma warm_heat_pos i : (i < 12)%nat -> 0 < warmHeat i.
Proof.
  intros I. destruct (warm_numbers i I) as (B1 & _ & B3). unfold warmHeat. cbv zeta in *. pose proof dblmin_small as DS. pose proof Rdblmin_pos as DP. set (L := hLoss 30 24 * _) in *. set (G := 1000 * _) in *. set (d := Rdblmin) in *. clearbody L G d.
  assert (N1 : L + d <> 0) by lra. assert (B4 : - (3421) * (1 / 1000000) <= d * (L + d) <= 0). { assert (0 <= d * - (L + d) <= 1 / 1000000 * 3421) by (split; [apply Rmult_le_pos; lra|apply Rmult_le_compat; lra]). lra. }
  assert (N2 : G + d * (L + d) <> 0) by lra. assert (N3 : G / (L + d) + d <> 0). { replace (G / (L + d) + d) with ((G + d * (L + d)) / (L + d)) by (field; lra). intros Z. unfold Rdiv in Z. apply Rmult_integral in Z. destruct Z as [Z|Z]; [lra|]. apply Rinv_neq_0_compat in Z; lra. }
  replace (L - 1 / (G / (L + d) + d) * G) with (d * (L * (L + d) - G) / (G + d * (L + d))) by (field; repeat split; lra).
  apply Rmult_lt_0_compat; [|apply Rinv_0_lt_compat; lra]. apply Rmult_lt_0_compat; [lra|]. assert (1080 * 1079 <= - L * - (L + d)) by (apply Rmult_le_compat; lra). lra.
Qed.
Lemma warm_house ec dc : exists m rows, monthlyAll (map_params Fin (house 10 0 ec dc)) (fin_weather (steadyYear 30)) = Ok m /\ simulateMonthly (map_params Fin (house 10 0 ec dc)) (fin_weather (steadyYear 30)) = Ok rows /\
  ne_ht (mr_needs m) = map Fin (map warmHeat (seq 0 12)) /\ ne_cl (mr_needs m) = map Fin (map warmCool (seq 0 12)) /\
  (forall i t tc te hve hvc sol phi, (i < 12)%nat -> month_data (house 10 0 ec dc) (steadyYear 30) m i t tc te hve hvc sol phi ->
     let A := st_floorArea (pa_structure (house 10 0 ec dc)) in let UA := envelope_UA (pa_structure (house 10 0 ec dc)) in clear_month (month_loss UA A hve t te i) (month_loss UA A hvc tc te i) (month_gain phi sol i)).
Proof.
  destruct (house_run 10 0 ec dc 30) as (m & rows & M & SM). exists m, rows. split; [exact M|]. split; [exact SM|]. destruct (house_lengths _ _ _ _ _ _ M) as [L1 L2]. pose proof dblmin_small as DS. pose proof Rdblmin_pos as DP.
  assert (NZ : forall i, (i < 12)%nat -> clear_month (hLoss 30 24 * month_megaseconds i) (hLoss 30 28 * month_megaseconds i) (1000 * month_megaseconds i)).
  { intros i I. destruct (warm_numbers i I) as (B1 & B2 & B3). cbv zeta in *. set (L := hLoss 30 24 * _) in *. set (G := 1000 * _) in *. set (K := hLoss 30 28 * _) in *. clearbody L G K. constructor; try lra.
    assert (B4 : - (3421) * (1 / 1000000) <= Rdblmin * (L + Rdblmin) <= 0). { assert (0 <= Rdblmin * - (L + Rdblmin) <= 1 / 1000000 * 3421) by (split; [apply Rmult_le_pos; lra|apply Rmult_le_compat; lra]). lra. }
    replace (G / (L + Rdblmin) + Rdblmin) with ((G + Rdblmin * (L + Rdblmin)) / (L + Rdblmin)) by (field; lra). intros Z. unfold Rdiv in Z. apply Rmult_integral in Z. destruct Z as [Z|Z]; [lra|]. apply Rinv_neq_0_compat in Z; lra. }
  assert (EG : forall s, hGain 10 0 * s = 1000 * s) by (intros s; unfold hGain; ring).
  assert (D : forall i, (i < 12)%nat -> nth_error (ne_ht (mr_needs m)) i = Some (Fin (warmHeat i)) /\ nth_error (ne_cl (mr_needs m)) i = Some (Fin (warmCool i))).
  { intros i I. destruct (house_months 10 0 ec dc 30 m i) as (_ & N1 & N2); try (apply Rabs_le; lra); [exact M|exact I|]. cbv zeta in N1, N2. destruct (warm_numbers i I) as (B1 & B2 & B3). destruct (NZ i I) as [C1 C2 C3 C4 C5]. cbv zeta in *. rewrite EG in N1, N2. split.
    - rewrite N1. f_equal. rewrite sdiv_R by lra. rewrite etaH_neg; [rewrite mul_fin, sub_fin; reflexivity| |exact C3].
      assert (0 < 1000 * month_megaseconds i / - (hLoss 30 24 * month_megaseconds i + Rdblmin)) by (apply Rmult_lt_0_compat; [lra|apply Rinv_0_lt_compat; lra]).
      replace (1000 * month_megaseconds i / (hLoss 30 24 * month_megaseconds i + Rdblmin)) with (- (1000 * month_megaseconds i / - (hLoss 30 24 * month_megaseconds i + Rdblmin))) by (field; lra). lra.
    - rewrite N2. f_equal. apply need_cl_in; lra. }
  split; [apply months_eq; [exact L1|intros i I; apply (D i I)]|]. split; [apply months_eq; [exact L2|intros i I; apply (D i I)]|].
  intros i t tc te hve hvc sol phi I MD. cbv zeta. destruct (house_months 10 0 ec dc 30 m i) as (MD' & _); try (apply Rabs_le; lra); [exact M|exact I|]. cbv zeta in MD'.
  destruct MD as [X1 X2 X3 X4 X5 X6 X7]. destruct MD' as [Y1 Y2 Y3 Y4 Y5 Y6 Y7].
  assert (t = 24) by congruence. assert (tc = 28) by congruence. assert (te = 30) by congruence. assert (hve = airFlow 30 24) by congruence. assert (hvc = airFlow 30 28) by congruence.
  assert (Q1 : sol = - (110) * 0 * month_megaseconds i) by congruence. assert (Q2 : phi = 100 * 10) by congruence. subst.
  change (pa_structure (house 10 0 ec dc)) with (houseStructure (0 : R)). rewrite house_UA. change (st_floorArea (houseStructure (0 : R))) with (@zn R _ 100). rewrite zn_R.
  replace (month_gain (100 * 10) (- (110) * 0 * month_megaseconds i) i) with (1000 * month_megaseconds i) by (unfold month_gain; ring). exact (NZ i I).
Qed.
Lemma warm_needs : (forall q, In q (map warmHeat (seq 0 12)) -> 0 <= q) /\ (forall q, In q (map warmCool (seq 0 12)) -> 0 < q) /\ 0 < Rsum (map warmHeat (seq 0 12)) + Rsum (map warmCool (seq 0 12)).
Proof.
  assert (W : forall i, (i < 12)%nat -> 0 < warmCool i) by (intros i I; destruct (warm_numbers i I) as (_ & B2 & B3); unfold warmCool; cbv zeta in *; lra).
  split; [intros q J; apply in_map_iff in J; destruct J as (i & <- & J); apply in_seq in J; apply Rlt_le, warm_heat_pos; lia|].
  split; [intros q J; apply in_map_iff in J; destruct J as (i & <- & J); apply in_seq in J; apply W; lia|]. pose proof (sum12_pos _ warm_heat_pos). pose proof (sum12_pos _ W). lra.
Qed.
(** District cooling without absorption chillers still burns gas. *)
Lemma C30_refuted_l : exists p w rows, plant_ok p /\ sound p /\ cl_DC_YesNo (pa_cooling p) = 1 /\ cl_eta_DC_frac_abs (pa_cooling p) = 0 /\ simulateMonthly (map_params Fin p) (fin_weather w) = Ok rows /\
  forall row, In row rows -> exists r, nth_error row gas_cooling = Some (Fin r) /\ 0 < r.
Proof.
  destruct (warm_house 1 1) as (m & rows & M & SM & H & C & _). exists (house 10 0 1 1), (steadyYear 30), rows. split; [apply house_plant|]. split; [apply house_sound|]. split; [reflexivity|]. split; [apply zn_R|]. split; [exact SM|].
  destruct warm_needs as (W1 & W2 & W3). destruct (C30_l (house 10 0 1 1) _ m rows _ _ (house_plant 10 0 1 1) M SM H C ltac:(lra)) as (_ & _ & _ & _ & P). cbv zeta in P. destruct (P eq_refl) as [_ P']. clear P.
  intros row I. destruct (series_in _ _ _ P' row I) as (y & Y & J). rewrite Y. apply in_map_iff in J. destruct J as (q & <- & J). eexists. split; [reflexivity|]. specialize (W2 q J).
  pose proof (house_plant 10 0 1 1) as [pA pl pc pw pe pp pd pD pa]. pose proof kWh_pos as KP. change (cl_frac_DC_free (pa_cooling (house 10 0 1 1))) with (@zn R _ 0). rewrite zn_R.
  assert (LN : 0 < with_cooling_losses (house 10 0 1 1) (map warmHeat (seq 0 12)) (map warmCool (seq 0 12)) q).
  { unfold with_cooling_losses. set (s := cooling_share _ _). assert (SP : 0 < s) by apply share_pos.
    assert (0 <= ht_hotcoldWasteFactor (pa_heating (house 10 0 1 1)) / s) by (apply Rmult_le_pos; [exact pw|now apply Rlt_le, Rinv_0_lt_compat]).
    assert (0 <= q * (cl_hvacLossFactor (pa_cooling (house 10 0 1 1)) + ht_hotcoldWasteFactor (pa_heating (house 10 0 1 1)) / s)) by (apply Rmult_le_pos; lra). lra. }
  set (z := with_cooling_losses _ _ _ _) in *. clearbody z. unfold kWh_m2, Rdiv. repeat apply Rmult_lt_0_compat; try lra; apply Rinv_0_lt_compat; assumption.
Qed.

(** *** C61: net gains that are negative *)
Lemma need_neg a L G : 0 < L -> G < 0 -> G + Rdblmin * (L + Rdblmin) < 0 ->
  exists r, nsub (Fin L) (nmul (etaHeating (Fin a) (Fin (sdiv G (L + Rdblmin)))) (Fin G)) = Fin r /\ r < 0.
Proof.
  intros HL HG HB. pose proof Rdblmin_pos as DP. set (d := Rdblmin) in *. assert (GN : G / (L + d) <= 0). { assert (0 <= - G * / (L + d)) by (apply Rmult_le_pos; [lra|apply Rlt_le, Rinv_0_lt_compat; lra]). unfold Rdiv. lra. }
  assert (N : G / (L + d) + d <> 0). { replace (G / (L + d) + d) with ((G + d * (L + d)) / (L + d)) by (field; lra). intros Z. unfold Rdiv in Z. apply Rmult_integral in Z. destruct Z as [Z|Z]; [lra|]. apply Rinv_neq_0_compat in Z; lra. }
  rewrite sdiv_R by lra. fold d. rewrite etaH_neg by assumption. rewrite mul_fin, sub_fin. eexists. split; [reflexivity|]. fold d. ops.
  replace (L - 1 / (G / (L + d) + d) * G) with (- (d * (L * (L + d) - G) / - (G + d * (L + d)))) by (field; repeat split; lra).
  assert (0 < d * (L * (L + d) - G) / - (G + d * (L + d))); [|lra]. apply Rmult_lt_0_compat; [|apply Rinv_0_lt_compat; lra]. apply Rmult_lt_0_compat; [lra|]. assert (0 < L * (L + d)) by (apply Rmult_lt_0_compat; lra). lra.
Qed.
Lemma C61_l p w m i : sound p -> monthlyAll (map_params Fin p) (fin_weather w) = Ok m -> (i < 12)%nat ->
  exists t tc te hve hvc sol phi, month_data p w m i t tc te hve hvc sol phi /\
  let L := month_loss (envelope_UA (pa_structure p)) (st_floorArea (pa_structure p)) hve t te i in let G := month_gain phi sol i in
  0 < L -> G + Rdblmin * (L + Rdblmin) < 0 -> exists r, nth_error (ne_ht (mr_needs m)) i = Some (Fin r) /\ r < 0.
Proof.
  intros S M I. destruct (month_balance p w m i S M I) as (t & tc & te & hve & hvc & sol & phi & D & NH & _). exists t, tc, te, hve, hvc, sol, phi. split; [exact D|]. cbv zeta in *. intros HL HG. rewrite NH.
  pose proof Rdblmin_pos as DP. assert (0 < Rdblmin * (month_loss (envelope_UA (pa_structure p)) (st_floorArea (pa_structure p)) hve t te i + Rdblmin)) by (apply Rmult_lt_0_compat; lra).
  destruct (need_neg (utilisation_exponent p) _ (month_gain phi sol i) HL ltac:(lra) HG) as (r & E & N). rewrite E. now exists r.
Qed.
(** The empty house in the cold: outside 10 degrees, inside 24, no gains, thermal radiation to the sky. *)
Lemma C61_refuted_l : exists p w m, sound p /\ vent_nonneg p /\ plant_ok p /\ uses_nonneg p /\ monthlyAll (map_params Fin p) (fin_weather w) = Ok m /\
  te_h (mr_temps m) = repeat (Fin 24) 12 /\ mw_mdbt w = repeat 10 12 /\ internalHeatGain (pa_structure (map_params Fin p)) (mr_gains m) = Fin 0 /\
  forall i, (i < 12)%nat -> exists r, nth_error (ne_ht (mr_needs m)) i = Some (Fin r) /\ r < 0.
Proof.
  destruct (house_run 0 (9 / 10) 1 0 10) as (m & rows & M & SM). exists (house 0 (9 / 10) 1 0), (steadyYear 10), m. split; [apply house_sound|]. split; [apply house_vent|]. split; [apply house_plant|]. split; [apply house_uses; lra|]. split; [exact M|].
  assert (HM : forall i, (i < 12)%nat -> _) by (intros i I; exact (house_months 0 (9 / 10) 1 0 10 m i ltac:(apply Rabs_le; lra) ltac:(apply Rabs_le; lra) M I)). cbv zeta in HM.
  split; [|split; [reflexivity|split]].
  - assert (L : length (te_h (mr_temps m)) = 12%nat) by (apply monthlyAll_run in M; apply (run_lengths _ _ _ M)).
    rewrite (months_eq _ (fun _ => 24) L); [reflexivity|]. intros i I. destruct (HM i I) as (D & _). exact (md_t _ _ _ _ _ _ _ _ _ _ _ D).
  - destruct (HM 0%nat ltac:(lia)) as (D & _). pose proof (md_phi _ _ _ _ _ _ _ _ _ _ _ D) as Q. rewrite Rmult_0_r in Q. exact Q.
  - intros i I. destruct (HM i I) as (_ & N & _). pose proof (ms_bounds i I) as B. pose proof (house_air_bound 0 0 0 0 10 24 ltac:(apply Rabs_le; lra)) as A. pose proof dblmin_small as DS. pose proof Rdblmin_pos as DP.
    assert (HL : 0 < hLoss 10 24 * month_megaseconds i <= 7980). { unfold hLoss. set (h := airFlow 10 24) in *. set (s := month_megaseconds i) in *. clearbody h s.
      assert (180 <= (90 + 100 * h) * s <= 570). { split; [replace 180 with (90 * 2) by lra|replace 570 with (190 * 3) by lra]; apply Rmult_le_compat; lra. } lra. }
    assert (HG : hGain 0 (9 / 10) * month_megaseconds i <= - (198)) by (unfold hGain; lra).
    set (L := hLoss 10 24 * _) in *. set (G := hGain 0 (9 / 10) * _) in *. clearbody L G.
    assert (Rdblmin * (L + Rdblmin) <= 1 / 1000000 * 7981) by (apply Rmult_le_compat; lra).
    destruct (need_neg (utilisation_exponent (house 0 (9 / 10) 1 0)) L G ltac:(lra) ltac:(lra) ltac:(lra)) as (r & E & R0). rewrite N, E. now exists r.
Qed.

(** *** Cases *)
Lemma warm_case : let p := house 10 0 1 0 in sound p /\ 0 < utilisation_exponent p /\ plant_ok p /\ water_ok p /\ uses_nonneg p /\
  ht_E_pumps (pa_heating p) * ht_pumpControlReduction (pa_heating p) <> 0 /\ cl_E_pumps (pa_cooling p) * cl_pumpControlReduction (pa_cooling p) <> 0 /\
  exists m rows qh qc, monthlyAll (map_params Fin p) (fin_weather (steadyYear 30)) = Ok m /\ simulateMonthly (map_params Fin p) (fin_weather (steadyYear 30)) = Ok rows /\
    ne_ht (mr_needs m) = map Fin qh /\ ne_cl (mr_needs m) = map Fin qc /\ Rsum qh + Rsum qc <> 0 /\ (forall q, In q qh -> 0 <= q) /\ (forall q, In q qc -> 0 <= q) /\
    (forall i t tc te hve hvc sol phi, (i < 12)%nat -> month_data p (steadyYear 30) m i t tc te hve hvc sol phi ->
     let A := st_floorArea (pa_structure p) in let UA := envelope_UA (pa_structure p) in clear_month (month_loss UA A hve t te i) (month_loss UA A hvc tc te i) (month_gain phi sol i)).
Proof.
  cbv zeta. split; [apply house_sound|]. split; [apply house_exponent|]. split; [apply house_plant|]. split; [apply house_water|]. split; [apply house_uses; lra|].
  split. { change (ht_E_pumps (pa_heating (house 10 0 1 0))) with (25 / 100). change (ht_pumpControlReduction (pa_heating (house 10 0 1 0))) with (@zn R _ 1). rewrite zn_R. lra. }
  split. { change (cl_E_pumps (pa_cooling (house 10 0 1 0))) with 1. change (cl_pumpControlReduction (pa_cooling (house 10 0 1 0))) with (@zn R _ 1). rewrite zn_R. lra. }
  destruct (warm_house 1 0) as (m & rows & M & SM & H & C & D). exists m, rows. do 2 eexists. split; [exact M|]. split; [exact SM|]. split; [exact H|]. split; [exact C|].
  destruct warm_needs as (W1 & W2 & W3). split; [lra|]. split; [exact W1|]. split; [intros q J; apply Rlt_le, W2, J|exact D].
Qed.
Lemma warm_one_case : let p := house 10 0 0 0 in exists m rows qh qc, monthlyAll (map_params Fin p) (fin_weather (steadyYear 30)) = Ok m /\ simulateMonthly (map_params Fin p) (fin_weather (steadyYear 30)) = Ok rows /\
  ne_ht (mr_needs m) = map Fin qh /\ ne_cl (mr_needs m) = map Fin qc /\ Rsum qh + Rsum qc <> 0 /\ (forall q, In q (vadd qh qc) -> q <> 0) /\
  cl_E_pumps (pa_cooling p) * cl_pumpControlReduction (pa_cooling p) = 0 /\
  Rsum (map (fun q => fst q / (fst q + snd q)) (combine qh qc)) <> 0 /\ Rsum (map (fun q => snd q / (fst q + snd q)) (combine qh qc)) <> 0.
Proof.
  cbv zeta. destruct (warm_house 0 0) as (m & rows & M & SM & H & C & D). exists m, rows. do 2 eexists. split; [exact M|]. split; [exact SM|]. split; [exact H|]. split; [exact C|].
  assert (W : forall i, (i < 12)%nat -> 0 < warmCool i) by (intros i I; destruct (warm_numbers i I) as (_ & B2 & B3); unfold warmCool; cbv zeta in *; lra).
  destruct warm_needs as (W1 & W2 & W3). split; [lra|]. split.
  { intros q J. apply in_vadd in J. destruct J as (a & b & Ja & Jb & ->). specialize (W1 a Ja). specialize (W2 b Jb). lra. }
  split. { change (cl_E_pumps (pa_cooling (house 10 0 0 0))) with 0. ring. }
  assert (E : forall (f g : nat -> R) l, combine (map f l) (map g l) = map (fun i => (f i, g i)) l) by (clear; intros f g l; induction l as [|a l IH]; cbn; congruence).
  rewrite !E, !map_map. cbn [fst snd].
  assert (P1 : 0 < Rsum (map (fun i => warmHeat i / (warmHeat i + warmCool i)) (seq 0 12))) by (apply sum12_pos; intros i I; pose proof (warm_heat_pos i I); specialize (W i I); apply Rmult_lt_0_compat; [lra|apply Rinv_0_lt_compat; lra]).
  assert (P2 : 0 < Rsum (map (fun i => warmCool i / (warmHeat i + warmCool i)) (seq 0 12))) by (apply sum12_pos; intros i I; pose proof (warm_heat_pos i I); specialize (W i I); apply Rmult_lt_0_compat; [lra|apply Rinv_0_lt_compat; lra]).
  split; apply Rgt_not_eq; assumption.
Qed.
